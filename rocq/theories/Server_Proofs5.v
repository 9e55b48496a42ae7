(** Proofs about the server, part 5: single commands, other jails, the registry, unbanning. *)
From Verif Require Import Base Server_Model Server_Spec Server_Proofs Server_Proofs2 Server_Proofs3 Server_Proofs4.
Open Scope string_scope.
Open Scope list_scope.
Open Scope Z_scope.

(** ** Streams *)
Lemma stream_ok_iff w cs : forall s s', stream w cs s = (s', None) <->
  exists vs, length vs = length cs /\
    (fix go cs vs s := match cs, vs with
       | [], [] => s = s'
       | c :: cr, v :: vr => exists s1, handler w c s = (s1, Good v) /\ go cr vr s1
       | _, _ => False end) cs vs s.
Proof.
  induction cs as [|c r IH]; intros s s'.
  - rewrite stream_nil. split.
    + intros H. injection H as ->. exists []. auto.
    + intros ([|v vs] & L & H); [now subst|discriminate].
  - rewrite stream_cons. split.
    + destruct (handler w c s) as [s1 [v|e]] eqn:E; [|discriminate]. intros H. apply IH in H as (vs & L & H).
      exists (v :: vs). split; [cbn; congruence|]. exists s1. auto.
    + intros ([|v vs] & L & H); [discriminate|]. destruct H as (s1 & E & H). rewrite E. apply IH.
      exists vs. split; [cbn in L; congruence|exact H].
Qed.

Lemma stream_err w cs : forall s s' e, stream w cs s = (s', Some e) <->
  exists a c b s1, cs = a ++ c :: b /\ stream w a s = (s1, None) /\ handler w c s1 = (s', Bad e).
Proof.
  induction cs as [|c r IH]; intros s s' e.
  - split; [discriminate|]. intros (a & c & b & s1 & E & _). destruct a; discriminate.
  - rewrite stream_cons. split.
    + destruct (handler w c s) as [s1 [v|e1]] eqn:E.
      * intros H. apply IH in H as (a & c' & b & s2 & -> & H1 & H2).
        exists (c :: a), c', b, s2. split; [reflexivity|]. rewrite stream_cons, E. auto.
      * intros H. injection H as -> ->. exists [], c, r, s. auto.
    + intros ([|c' a] & x & b & s1 & E & H1 & H2); cbn in E; injection E as -> ->.
      * injection H1 as ->. rewrite H2. reflexivity.
      * rewrite stream_cons in H1. destruct (handler w c' s) as [s2 [v|e1]]; [|discriminate].
        apply IH. exists a, x, b, s1. auto.
Qed.

(** ** Asking changes nothing *)
Lemma asks_same w c s : asks c -> fst (handler w c s) = s.
Proof.
  intros (k & r & -> & H). cbn in H.
  destruct H as [<-|[<-|[<-|[<-|[<-|[<-|[<-|[<-|[<-|[<-|[]]]]]]]]]]]; try reflexivity.
  destruct r; reflexivity.
Qed.

(** ** A setting that fails *)
Lemma dset_id {V} (d : dict string V) k v : dget k d = Some v -> dset k v d = d.
Proof.
  induction d as [|[k' v'] r IH]; cbn; [discriminate|]. destruct (eqb_spec k k') as [->|N].
  - intros E. now injection E as ->.
  - intros E. now rewrite IH.
Qed.

Lemma put_id n j s : lookup s n = Some j -> put n j s = s.
Proof. intros L. unfold put. rewrite dset_id by exact L. now destruct s. Qed.

Lemma set_one_fails w n k v s s' e : handler w (set n k [v]) s = (s', Bad e) -> s' = s.
Proof.
  unfold set. cbn [map]. change (handler w (A (T "set" :: T n :: T k :: [T v])) s) with (command_set w false [T n; T k; T v] s).
  unfold command_set. destruct (inb n server_settings); [intros H; now injection H as <-|].
  assert (OJ : forall f ret, (forall j, snd (f j) <> None -> fst (f j) = j) -> on_jail n s f ret = (s', Bad e) -> s' = s).
  { intros f ret F. unfold on_jail. destruct (lookup s n) as [j|] eqn:L; [|intros H; now injection H as <-].
    specialize (F j). destruct (f j) as [j' [x|]]; [|discriminate]. cbn [fst snd] in F. intros H. injection H as <- _.
    rewrite F by discriminate. now apply put_id. }
  assert (SAME : forall (r : res), (s, r) = (s', Bad e) -> s' = s) by (intros r H; now injection H).
  unfold set_key. cbn [texts].
  destruct (eqb k "idle").
  { destruct (eqb v "on"); [apply OJ; intros j H; now elim H|]. destruct (eqb v "off"); [apply OJ; intros j H; now elim H|]. apply SAME. }
  destruct (eqb k "addignoreip").
  { cbn [andb]. apply OJ. intros j. cbn [add_each]. destruct (e_ip w v); cbn; [congruence|]. intros _. now destruct j. }
  destruct (eqb k "delignoreip"). { apply OJ. intros j. destruct (inb v (j_ips j)); cbn; congruence. }
  destruct (eqb k "addlogpath"); [apply OJ; intros j H; now elim H|].
  destruct (eqb k "dellogpath"); [apply OJ; intros j H; now elim H|].
  destruct (eqb k "addfailregex" || eqb k "addignoreregex").
  { cbv zeta. match goal with |- context [on_jail n s ?f ?r] => pose proof (OJ f r) as H; destruct (on_jail n s f r) as [s1 [v1|e1]] end; [discriminate|].
    intros E. injection E as -> ->. apply H; [|reflexivity]. intros j. cbn [add_each].
    destruct (eqb k "addfailregex"), (e_regex w v); cbn; try congruence; intros _; now destruct j. }
  destruct (eqb k "delfailregex" || eqb k "delignoreregex").
  { cbv zeta. destruct (e_int w v); [|apply SAME]. apply OJ. intros j H. now elim H. }
  destruct (is_value_setting k).
  { destruct (e_value w k v); [|apply SAME]. apply OJ. intros j H. now elim H. }
  destruct (eqb k "banip").
  { destruct (lookup s n) as [j|]; [|apply SAME]. destruct (ban_list _ _ _). discriminate. }
  destruct (eqb k "unbanip").
  { cbv zeta. destruct (eqb v "--report-absent"); cbn [negb texts].
    - unfold set_unban. destruct (lookup s n) as [j|] eqn:L; [|apply SAME]. cbn [unban_in remove_banned unban_list]. rewrite L. discriminate.
    - unfold set_unban. destruct (lookup s n) as [j|] eqn:L; [|apply SAME]. cbn [unban_in remove_banned unban_list]. rewrite L.
      unfold unban1. destruct (inb v (j_bans j)); [discriminate|]. cbv zeta. destruct (filter _ _); discriminate. }
  destruct (eqb k "attempt"). { destruct (s_quiet s); [discriminate|]. destruct (lookup s n); apply SAME. }
  destruct (inb k _); [|apply SAME]. destruct (lookup s n); apply SAME.
Qed.

(** ** Other jails *)
Definition other (m : string) (s s' : srv) : Prop :=
  jail_of s' m = jail_of s m /\ dget m (s_reload s') = dget m (s_reload s) /\ (In m (s_enabled s') <-> In m (s_enabled s))
  /\ s_quiet s' = s_quiet s /\ s_db s' = s_db s.

Lemma other_refl m s : other m s s.
Proof. unfold other. intuition. Qed.
Lemma other_trans m a b c : other m a b -> other m b c -> other m a c.
Proof. unfold other. intros (H1 & H2 & H3 & H4 & H5) (G1 & G2 & G3 & G4 & G5). rewrite G1, G2, G3, G4, G5. tauto. Qed.
Lemma other_put m n j s : m <> n -> other m s (put n j s).
Proof. intros N. unfold other. rewrite jail_of_put. apply eqb_neq in N. rewrite N. intuition. Qed.
Lemma other_note m e s : other m s (note e s).
Proof. unfold other. rewrite jail_of_note. intuition. Qed.

Lemma other_del w m n a b s : m <> n -> other m s (fst (del_jail w n a b s)).
Proof.
  intros N. unfold del_jail. destruct (lookup s n) as [j|]; [|apply other_refl]. cbv zeta.
  set (s1 := if b || is_alive j then _ else _).
  assert (O1 : other m s s1).
  { unfold s1. destruct (b || is_alive j); [|apply other_refl]. destruct b; [|now apply other_put].
    eapply other_trans; [apply (other_put m n (jail_stop a true j) s N)|apply other_note]. }
  destruct b; [|exact O1].
  assert (D : forall x, other m s x -> other m s (set_jails (ddel n (s_jails x)) x)).
  { intros x (H1 & H2 & H3 & H4 & H5). unfold other, jail_of in *. cbn [set_jails s_jails s_reload s_enabled s_quiet s_db].
    rewrite dget_ddel_other by exact N. auto. }
  destruct (s_db s1).
  - destruct (e_dbdel w n); [|exact O1]. cbn [fst].
    apply (D (set_enabled (filter (fun x => negb (eqb n x)) (s_enabled s1)) s1)). destruct O1 as (H1 & H2 & H3 & H4).
    split; [exact H1|]. split; [exact H2|]. split; [|exact H4]. cbn [set_enabled s_enabled]. rewrite filter_In, negb_true_iff, eqb_neq.
    intuition congruence.
  - apply (D s1 O1).
Qed.

Lemma other_dbadd w m n s : m <> n -> other m s (fst (db_add w n s)).
Proof.
  intros N. unfold db_add. destruct (s_db s) eqn:D; [|apply other_refl]. destruct (e_dbadd w n); [|apply other_refl].
  unfold other. cbn [fst set_enabled s_enabled s_reload s_quiet s_db]. repeat (split; [reflexivity|]). split; [|auto].
  destruct (inb n (s_enabled s)); [tauto|]. rewrite in_app_iff. cbn. intuition congruence.
Qed.

Lemma other_jails_add w m n b s : m <> n -> other m s (fst (jails_add w n b s)).
Proof.
  intros N. unfold jails_add. destruct (dmem n (s_jails s)); [apply other_refl|]. destruct (e_make w n b); [|apply other_refl].
  cbn [fst]. eapply other_trans; [apply (other_put m n (new_jail (s_next s) b) s N)|].
  unfold other. rewrite jail_of_note. repeat split; auto.
Qed.

Lemma other_add w m n b s : m <> n -> other m s (fst (add_jail w n b s)).
Proof.
  intros N. unfold add_jail.
  match goal with |- context [match ?x with (_, _) => _ end] => assert (H : other m s (fst (fst x))) end.
  { destruct (dget n (s_reload s)) as [[|]|]; try apply other_refl. destruct (lookup s n) as [j|]; [|apply other_refl].
    destruct (eqb (j_backend j) b).
    - unfold other. cbn [fst set_reload s_reload s_enabled s_quiet s_db]. rewrite dget_dset_other by exact N. repeat split; auto.
    - pose proof (other_del w m n true true s N) as H1. destruct (del_jail w n true true s) as [s' [e|]]; [exact H1|].
      cbn [fst] in *. eapply other_trans; [exact H1|]. unfold other. cbn [set_reload s_reload s_enabled s_quiet s_db].
      rewrite dget_ddel_other by exact N. repeat split; auto. }
  match goal with |- context [match ?x with (_, _) => _ end] => destruct x as [[s1 e1] flg] end.
  cbn [fst] in H. destruct e1 as [e|]; [exact H|].
  assert (H2 : other m s (fst (if flg then jails_add w n b s1 else (s1, None)))).
  { destruct flg; [|exact H]. eapply other_trans; [exact H|]. now apply other_jails_add. }
  destruct (if flg then jails_add w n b s1 else (s1, None)) as [s2 [e|]]; [exact H2|].
  eapply other_trans; [exact H2|]. now apply other_dbadd.
Qed.

Lemma other_start w m n s : m <> n -> other m s (fst (start_jail w n s)).
Proof.
  intros N. unfold start_jail. destruct (lookup s n) as [j|]; [|apply other_refl].
  match goal with |- context [match ?x with (_, _) => _ end] => assert (H : other m s (fst (fst x))) end.
  { destruct (negb (is_alive j)).
    - destruct (jail_start w n j) as [j' e]. cbn [fst]. destruct (is_alive j'); [|now apply other_put].
      eapply other_trans; [apply (other_put m n j' s N)|apply other_note].
    - destruct (dmem n (s_reload s)); [|apply other_refl]. unfold other. cbn [fst set_reload s_reload s_enabled s_quiet s_db].
      rewrite dget_ddel_other by exact N. repeat split; auto. }
  match goal with |- context [match ?x with (_, _) => _ end] => destruct x as [[s1 j1] [e|]] end; cbn [fst] in *; [exact H|].
  destruct (j_idle j1); [|exact H]. eapply other_trans; [exact H|]. now apply other_put.
Qed.

Lemma other_about w m n c s : about n c -> m <> n -> other m s (fst (handler w c s)).
Proof.
  intros (NA & k & r & -> & H) N. cbn in H.
  assert (DN : forall p v, fst (done p v) = fst p) by (intros [x [e|]] v; reflexivity).
  destruct H as [<-|[<-|[<-|[<-|[<-|[]]]]]].
  - change (handler w (A (T "add" :: T n :: r)) s) with
        (if eqb n all_jails then (s, Bad EReserved)
         else match r with [] => done (add_jail w n "auto" s) (VTxt n) | T b :: _ => done (add_jail w n b s) (VTxt n) | A _ :: _ => (s, Bad EType) end).
    destruct (eqb n all_jails); [apply other_refl|].
    destruct r as [|[b|] r]; rewrite ?DN; try apply other_refl; now apply other_add.
  - change (handler w (A (T "start" :: T n :: r)) s) with (done (start_jail w n s) VNone). rewrite DN. now apply other_start.
  - change (handler w (A (T "stop" :: T n :: r)) s) with
      (if eqb n all_jails then done (stop_all w s) VNone else done (stop_jail w n s) VNone).
    destruct (eqb_spec n all_jails) as [E|_]; [now elim NA|]. rewrite DN. now apply other_del.
  - change (handler w (A (T "set" :: T n :: r)) s) with (command_set w false (T n :: r) s).
    destruct (command_set_shape w false (T n :: r) s) as [->|(n' & j & j' & r' & E & _ & -> & _)]; [apply other_refl|].
    injection E as <- _. now apply other_put.
  - change (handler w (A (T "multi-set" :: T n :: r)) s) with (command_set w true (T n :: r) s).
    destruct (command_set_shape w true (T n :: r) s) as [->|(n' & j & j' & r' & E & _ & -> & _)]; [apply other_refl|].
    injection E as <- _. now apply other_put.
Qed.

Lemma other_stream w m n cs : Forall (fun c => about n c \/ exists r, c = A (T "config-error" :: r)) cs -> m <> n ->
  forall s, other m s (fst (stream w cs s)).
Proof.
  intros F N. induction F as [|c r C F IH]; intros s; [apply other_refl|]. rewrite stream_cons.
  assert (H : other m s (fst (handler w c s))).
  { destruct C as [C|(r' & ->)]; [now apply (other_about w m n)|]. apply other_refl. }
  destruct (handler w c s) as [s1 [v|e]]; [|exact H]. eapply other_trans; [exact H|]. apply IH.
Qed.

(** A reload of one jail leaves the others alone, whatever happens. *)
Lemma each_other m f l : (forall n s, n <> m -> In n l -> other m s (fst (f n s))) -> ~ In m l ->
  forall s, other m s (fst (each f l s)).
Proof.
  induction l as [|n r IH]; intros Hf N s; [apply other_refl|]. cbn [each].
  assert (Nn : n <> m) by (intros ->; apply N; now left).
  pose proof (Hf n s Nn (or_introl eq_refl)) as H. destruct (f n s) as [s' [e|]]; [exact H|].
  eapply other_trans; [exact H|]. apply IH.
  - intros k x K I. apply Hf; [exact K|now right].
  - intros I. apply N. now right.
Qed.

Lemma single_others w n opts cs m s : inv s -> settled s -> n <> "--all" -> m <> n ->
  Forall (fun c => about n c \/ exists r, c = A (T "config-error" :: r)) cs ->
  jail_of (fst (handler w (reload n opts cs) s)) m = jail_of s m
  /\ (In m (s_enabled (fst (handler w (reload n opts cs) s))) <-> In m (s_enabled s)).
Proof.
  intros I (Q & R & L) NA N F. unfold reload. rewrite handler_reload.
  assert (BG : other m (set_quiet true s) (fst (reload_middle w (T n) (A (map T opts)) [A cs] s))).
  { unfold reload_middle. rewrite reload_begin_eq by exact R.
    assert (P : other m (set_quiet true s) (fst (prelude w n (A (map T opts)) (set_quiet true s)))).
    { unfold prelude. pose proof NA as NA'. change "--all" with all_jails in NA'. apply eqb_neq in NA'. rewrite NA'. cbn [negb].
      destruct (lookup _ n) as [j|] eqn:Lj; [|destruct (opt_in _ _); apply other_refl].
      assert (U : other m (set_quiet true s) (fst (if opt_in "--unban" (A (map T opts)) then set_unban w (Some n) None true (set_quiet true s) else (set_quiet true s, Good VNone)))).
      { destruct (opt_in _ _); [|apply other_refl]. unfold set_unban. rewrite Lj.
        destruct (unban_one_shape w true None n (set_quiet true s)) as [->|(k & k' & _ & -> & _)]; [apply other_refl|now apply other_put]. }
      destruct (if opt_in "--unban" _ then _ else _) as [s1 [v|e]]; [|exact U]. destruct (opt_in _ _); [|exact U].
      eapply other_trans; [exact U|]. now apply other_del. }
    destruct (prelude w n (A (map T opts)) (set_quiet true s)) as [s1 [e|]]; [exact P|].
    assert (B : other m (set_quiet true s) (fst (each (begin_one w) (filter (sel n) (dkeys (s_jails s1))) s1))).
    { eapply other_trans; [exact P|]. apply each_other.
      - intros k x K _. unfold begin_one. destruct (lookup x k) as [j|]; [|apply other_refl]. cbv zeta.
        assert (O : other m x (set_reload (dset k true (s_reload x)) (put k (with_idle true j) x))).
        { eapply other_trans; [apply (other_put m k (with_idle true j) x)|]; [congruence|]. unfold other.
          cbn [set_reload s_reload s_enabled s_quiet s_db put set_jails]. rewrite dget_dset_other by congruence. repeat split; auto. }
        destruct (e_begin w k); [|exact O]. eapply other_trans; [exact O|]. apply other_put. congruence.
      - rewrite filter_In. intros [_ H]. apply sel_spec in H as [H|H]; contradiction. }
    destruct (each (begin_one w) _ s1) as [s2 [e|]]; [exact B|]. cbn [reload_stream].
    eapply other_trans; [exact B|]. now apply (other_stream w m n). }
  pose proof (inv_quiet true s I) as Iq.
  assert (O2 : inv (fst (reload_middle w (T n) (A (map T opts)) [A cs] s)) ->
    jail_of (fst (let '(s2, e) := reload_middle w (T n) (A (map T opts)) [A cs] s in
       match reload_end w (set_quiet false s2) with
       | (s3, Some e') => (s3, Bad e')
       | (s3, None) => (s3, match e with Some x => Bad x | None => Good (VTxt "OK") end) end)) m = jail_of s m
    /\ (In m (s_enabled (fst (let '(s2, e) := reload_middle w (T n) (A (map T opts)) [A cs] s in
       match reload_end w (set_quiet false s2) with
       | (s3, Some e') => (s3, Bad e')
       | (s3, None) => (s3, match e with Some x => Bad x | None => Good (VTxt "OK") end) end))) <-> In m (s_enabled s))).
  { destruct (reload_middle w (T n) (A (map T opts)) [A cs] s) as [s2 e]. cbn [fst] in *. intros I2.
    assert (EQ : forall p : srv * option err, fst (let '(s3, x) := p in match x with Some e' => (s3, Bad e') | None => (s3, match e with Some y => Bad y | None => Good (VTxt "OK") end) end) = fst p)
      by (intros [x [y|]]; reflexivity).
    replace (match reload_end w (set_quiet false s2) with
       | (s3, Some e') => (s3, Bad e')
       | (s3, None) => (s3, match e with Some x => Bad x | None => Good (VTxt "OK") end) end)
     with (let '(s3, x) := reload_end w (set_quiet false s2) in match x with Some e' => (s3, Bad e') | None => (s3, match e with Some y => Bad y | None => Good (VTxt "OK") end) end)
      by (destruct (reload_end w (set_quiet false s2)) as [? [|]]; reflexivity).
    rewrite EQ. destruct BG as (G1 & G2 & G3 & G4 & G5).
    cbn [set_quiet s_reload s_enabled] in G2, G3. change (jail_of (set_quiet true s) m) with (jail_of s m) in G1. rewrite R in G2. cbn in G2.
    assert (RL : forall j, jail_of s2 m = Some j -> j_rlogs j = None) by (intros j; rewrite G1; apply L).
    (* the end *)
    assert (E : other m (set_quiet false s2) (fst (reload_end w (set_quiet false s2))) \/
       (jail_of (fst (reload_end w (set_quiet false s2))) m = jail_of s2 m /\ (In m (s_enabled (fst (reload_end w (set_quiet false s2)))) <-> In m (s_enabled s2)))).
    { right. unfold reload_end. cbv zeta. cbn [set_quiet s_jails s_reload].
      set (K1 := filter (fun n0 => negb (dmem n0 (s_reload s2))) (dkeys (s_jails s2))).
      set (K2 := filter (fun n0 => dmem n0 (s_reload s2)) (dkeys (s_jails s2))).
      assert (C : other m (set_quiet false s2) (fst (each (commit_one w) K1 (set_quiet false s2))) ).
      { assert (GEN : forall l x, (forall j, jail_of x m = Some j -> j_rlogs j = None) -> other m x (fst (each (commit_one w) l x))).
        { induction l as [|k r IH]; intros x RX; [apply other_refl|]. cbn [each]. unfold commit_one at 1.
          destruct (lookup x k) as [j|] eqn:Lk.
          - destruct (e_end w k); [|apply other_refl].
            assert (O : other m x (put k (filter_end j) x)).
            { destruct (eqb_spec m k) as [->|Nk]; [|now apply other_put]. rewrite (filter_end_id j (RX j Lk)), put_id by exact Lk. apply other_refl. }
            eapply other_trans; [exact O|]. apply IH. intros i. destruct O as [-> _]. apply RX.
          - now apply IH. }
        apply GEN. exact RL. }
      destruct (each (commit_one w) K1 (set_quiet false s2)) as [s3 [x|]]; cbn [fst] in C.
      { destruct C as (C1 & C2 & C3 & _). split; [exact C1|exact C3]. }
      assert (D : other m s3 (fst (each (fun n0 => del_jail w n0 true true) K2 s3))).
      { apply each_other.
        - intros k x Nk _. apply other_del. congruence.
        - unfold K2. rewrite filter_In. intros [_ H]. unfold dmem in H. rewrite G2 in H. discriminate. }
      destruct C as (C1 & C2 & C3 & _), D as (D1 & D2 & D3 & _).
      change (jail_of s3 m = jail_of s2 m) in C1.
      destruct (each (fun n0 => del_jail w n0 true true) K2 s3) as [s4 [x|]]; cbn [fst set_reload s_enabled] in *.
      - split; [congruence|]. rewrite D3. exact C3.
      - split; [change (jail_of s4 m = jail_of s2 m); congruence|]. rewrite D3. exact C3. }
    destruct E as [(E1 & _ & E3 & _)|[E1 E3]].
    - change (jail_of (set_quiet false s2) m) with (jail_of s2 m) in E1. cbn [set_quiet s_enabled] in E3. split; [congruence|tauto].
    - split; [congruence|tauto]. }
  apply O2. unfold reload_middle.
  assert (X : inv (fst (reload_begin w (T n) (A (map T opts)) (set_quiet true s)))).
  { apply (reload_begin_pres w inv); auto.
    - intros; now apply inv_del.
    - intros; apply set_unban_pres; auto. intros; eapply inv_tweak; eauto.
    - intros; now apply inv_begin. }
  destruct (reload_begin w _ _ _) as [s1 [e|]]; [exact X|]. cbn [reload_stream]. now apply inv_stream.
Qed.
