(** C98, C99: what a start makes of a database of an older version, of none, of a damaged one, and what a crash meanwhile leaves. *)
From Coq Require Import ZifyBool ZifyNat.
From Verif Require Import Base Ticket_Model Database_Model Database_Spec Database_Proofs DbOpen_Model DbOpen_Spec DbOpen_Proofs.
Local Open Scope string_scope.
Local Open Scope list_scope.
Local Open Scope Z_scope.

(** ** C98: the upgrade *)
(** A sound database of an older version is opened: all its jails, positions of logs and bans are kept, the
    newest ban of each ID in a jail is its current one, and the file as it was is the backup. *)
Theorem C98_upgrade : forall dump d f v, d_main d = Some (Good f) -> sound v f -> v < 4 ->
  exists s f' l bips, open_db dump d = (s, Opened) /\ d_main (o_disk s) = Some (Good f')
  /\ sound 4 f' /\ keeps f f' l /\ f_bips f' = Some bips /\ latest_bans l bips
  /\ d_backup (o_disk s) = match d_backup d with Some c => Some c | None => Some (Good f) end.
Proof.
  intros dump d f v M Sd L. destruct (sound_on_way v f Sd L) as (l & W & SB). destruct (open_on_way dump d f v l M W) as (s & O & D & _).
  exists s, (final f l), l, (newest l []). split; [exact O|]. rewrite D. split; [reflexivity|].
  split; [apply (sound_final v f l _ (newest l [])); [exact Sd|eauto|reflexivity]|]. split; [repeat split; exact SB|]. split; [reflexivity|]. split; [apply newest_spec|reflexivity].
Qed.

(** After a crash at any point of the upgrade the next start opens the database with all jails, positions and bans
    of the old one; the current bans are missing only if the crash was after their table was added and before it
    was filled. *)
Theorem C98_crash : forall dump d f v, d_main d = Some (Good f) -> sound v f -> v < 4 ->
  forall d', In d' (o_trace (fst (open_db dump d))) -> forall dump' backup,
  exists s f' l bips, open_db dump' (mkDisk (d_main d') backup) = (s, Opened) /\ d_main (o_disk s) = Some (Good f')
  /\ sound 4 f' /\ keeps f f' l /\ f_bips f' = Some bips
  /\ (latest_bans l bips \/ bips = [] /\ exists g, d_main d' = Some (Good g) /\ f_bips g = Some []).
Proof.
  intros dump d f v M Sd L d' I dump' bk. destruct (sound_on_way v f Sd L) as (l & W & SB). destruct (open_on_way dump d f v l M W) as (s & O & D & T).
  rewrite O in I. cbn [fst] in I. destruct (T d' I) as (g & Mg & Jg & Lg & _ & [ (v' & W')|[-> | ->]]).
  - destruct (open_on_way dump' (mkDisk (d_main d') bk) g v' l) as (s' & O' & D' & _); [exact Mg|exact W'|].
    exists s', (final g l), l, (newest l []). split; [exact O'|]. rewrite D'. split; [reflexivity|].
    split; [apply (sound_final v f l _ (newest l [])); [exact Sd|eauto|unfold final; now rewrite Jg, Lg]|].
    split; [repeat split; cbn; assumption|]. split; [reflexivity|]. left. apply newest_spec.
  - rewrite (open_current dump' (mkDisk (d_main d') bk) (unfilled f l) []); [|exact Mg|reflexivity].
    eexists _, (unfilled f l), l, []. split; [reflexivity|]. cbn [o_disk d_main]. split; [exact Mg|].
    split; [apply (sound_final v f l _ []); [exact Sd|eauto|reflexivity]|]. split; [repeat split; exact SB|]. split; [reflexivity|]. right. split; [reflexivity|]. exists (unfilled f l). auto.
  - rewrite (open_current dump' (mkDisk (d_main d') bk) (final f l) []); [|exact Mg|reflexivity].
    eexists _, (final f l), l, (newest l []). split; [reflexivity|]. cbn [o_disk d_main]. split; [exact Mg|].
    split; [apply (sound_final v f l _ (newest l [])); [exact Sd|eauto|reflexivity]|]. split; [repeat split; exact SB|]. split; [reflexivity|]. left. apply newest_spec.
Qed.

(** Also at any point of the upgrade the file as it was is there: in place, or as the backup of this start. *)
Theorem C98_backup : forall dump d f v, d_main d = Some (Good f) -> sound v f -> v < 4 -> d_backup d = None ->
  forall d', In d' (o_trace (fst (open_db dump d))) -> d_main d' = Some (Good f) \/ d_backup d' = Some (Good f).
Proof.
  intros dump d f v M Sd L B d' I. destruct (sound_on_way v f Sd L) as (l & W & SB). destruct (open_on_way dump d f v l M W) as (s & O & D & T).
  rewrite O in I. destruct (T d' I) as (g & Mg & _ & _ & Bg & _). rewrite B in Bg. destruct Bg as [[_ ->]|Bg]; auto.
Qed.

(** A ban of a version without ban times is restored, after the upgrade, exactly if it still runs with the ban time
    of the jail. *)
Theorem C98_restored : forall dump d f v bs, d_main d = Some (Good f) -> sound v f -> v < 3 -> f_bans f = Some (BansOld bs) ->
  exists s f' db, open_db dump d = (s, Opened) /\ d_main (o_disk s) = Some (Good f') /\ as_db f' = Some db
  /\ forall j js now ignored, js_bantime js = -1 \/ 0 < js_bantime js ->
     forall id, In id (map t_id (restore j js now (fun _ => now) ignored db)) <->
       id <> "" /\ ignored id = false /\ exists o, In o bs /\ o_jail o = j /\ o_ip o = id /\ running now (o_time o) (js_bantime js).
Proof.
  intros dump d f v bs M Sd L Eb. destruct (sound_on_way v f Sd ltac:(lia)) as (l & W & SB). destruct (open_on_way dump d f v l M W) as (s & O & D & _).
  rewrite Eb in SB. cbn in SB. destruct (so_jails v f Sd) as (js0 & Ej & (ls & El & _) & _).
  exists s, (final f l), (mkDb js0 (map (fun l => ((l_jail l, l_path l), (l_md5 l, l_pos l))) ls) l (newest l []) []). split; [exact O|]. rewrite D. split; [reflexivity|].
  split; [unfold as_db, final; cbn; now rewrite Ej, El|]. intros j js now ignored SJ id.
  assert (RO : forall r, In r l -> r_bt r = -2 /\ exists o, In o bs /\ ban_of_old o r).
  { intros r I. clear -SB I. induction SB as [|o r' bs l H SB IH]; [destruct I|]. destruct I as [<-|I]; [split; [apply H|exists o; split; [now left|exact H]]|].
    destruct (IH I) as (E & o' & I' & H'). split; [exact E|]. exists o'. split; [now right|exact H']. }
  assert (OR : forall o, In o bs -> exists r, In r l /\ ban_of_old o r).
  { intros o I. clear -SB I. induction SB as [|o' r' bs l H SB IH]; [destruct I|]. destruct I as [<-|I]; [exists r'; split; [now left|exact H]|].
    destruct (IH I) as (r & I' & H'). exists r. split; [now right|exact H']. }
  set (D0 := mkDb js0 _ l (newest l []) []).
  assert (CI : forall r fb, In r (current_rows j fb now D0) <-> dget (r_ip r, j) (newest l []) = Some r /\ ((r_time r + r_bt r >? now) || (r_bt r <=? -1)) = true
    /\ match fb with None => true | Some f => if f =? -1 then true else r_time r >? now - f end = true).
  { intros r fb. apply (current_In j fb now (mkDb [] [] [] (newest l []) []) r). split; [|repeat split; try constructor; intros ? ? ? []].
    apply newest_wf. split; [constructor|intros ? ? []]. }
  pose proof (newest_spec l) as NS. rewrite restore_rows, in_map_iff. split.
  - intros (tk & Et & I). apply in_flat_map in I as (r & I & I2). apply CI in I as (G & _ & _). specialize (NS (r_ip r) j). rewrite G in NS. destruct NS as (Il & _ & Jr & _).
    destruct (RO r Il) as (B2 & o & Io & (Oj & Oi & Ot & _)). unfold restored_row in I2. cbn zeta in I2. rewrite B2 in I2. unfold correct_bt in I2. change (-2 =? -2) with true in I2. cbv iota in I2.
    destruct (eqb_spec (r_ip r) "") as [|N]; [destruct I2|]. destruct (negb (js_bantime js =? -1) && (r_time r + js_bantime js <=? now)) eqn:X; [destruct I2|].
    destruct (ignored (r_ip r)) eqn:Ig; [destruct I2|]. cbn [orb] in I2. destruct (clock_ok _ _ _); [|destruct I2]. destruct I2 as [<-|[]].
    cbn [t_id with_restored] in Et. rewrite (proj1 (row_ticket_fields (js_maxm js) (js_bantime js) r)) in Et. subst id. split; [exact N|]. split; [exact Ig|].
    exists o. split; [exact Io|]. split; [congruence|]. split; [congruence|]. unfold running. rewrite <- Ot. lia.
  - intros (N & Ig & o & Io & Oj & Oi & R). destruct (OR o Io) as (r0 & I0 & (Rj & Ri & Rt & _)). specialize (NS id j).
    destruct (dget (id, j) (newest l [])) as [r|] eqn:G; [|exfalso; apply (NS r0 I0); split; congruence]. destruct NS as (Il & Ei & Jr & NW).
    specialize (NW r0 I0 ltac:(congruence) ltac:(congruence)). destruct (RO r Il) as (B2 & _).
    exists (with_restored true (row_ticket (js_maxm js) (js_bantime js) r)). split; [cbn [t_id with_restored]; now rewrite (proj1 (row_ticket_fields (js_maxm js) (js_bantime js) r))|].
    apply in_flat_map. exists r. unfold running in R. split.
    + apply CI. rewrite Ei. split; [exact G|]. split; [lia|]. destruct (js_increment js); [reflexivity|]. destruct (Z.eqb_spec (js_bantime js) (-1)); [reflexivity|lia].
    + unfold restored_row. cbn zeta. rewrite B2. unfold correct_bt. change (-2 =? -2) with true. cbv iota. rewrite Ei, Ig.
      destruct (eqb_spec id "") as [|_]; [congruence|].
      assert (X : negb (js_bantime js =? -1) && (r_time r + js_bantime js <=? now) = false) by lia. rewrite X. cbn [orb].
      assert (Y : clock_ok (js_bantime js) (r_time r) now = true).
      { unfold clock_ok. destruct (Z.eqb_spec (js_bantime js) (-1)) as [Q|Q]; cbn [negb andb]; [rewrite Q; reflexivity|]. destruct (now - r_time r >? 0) eqn:K; lia. }
      rewrite Y. now left.
Qed.

(** The demo: a database of version 1 with two bans of one ID. *)
Definition old_file : file := mkFile (Some [1]) (Some [("sshd", true); ("web", true)]) (Some [mkLog "sshd" "/var/log/auth.log" (Some "md5") 40])
  (Some (BansOld [mkOld "sshd" "192.0.2.1" 1000 5 (Some ["a"]); mkOld "web" "192.0.2.1" 1500 3 None; mkOld "sshd" "192.0.2.1" 900 4 None])) None.
Definition old_disk : disk := mkDisk (Some (Good old_file)) None.
Example C98_demo : sound 1 old_file
  /\ exists s f', open_db (fun _ => None) old_disk = (s, Opened) /\ d_main (o_disk s) = Some (Good f')
     /\ option_map (map fst) (f_bips f') = Some [("192.0.2.1", "sshd"); ("192.0.2.1", "web")] /\ length (o_trace s) = 6%nat
     /\ option_map (fun db => map t_id (restore "sshd" (mkJset 600 false None 5) 1599 (fun _ => 1599) (fun _ => false) db)) (as_db f') = Some ["192.0.2.1"].
Proof.
  split.
  - split; [reflexivity|]. exists [("sshd", true); ("web", true)]. split; [reflexivity|]. split.
    + eexists. split; [reflexivity|]. split; [intros l [<-|[]]; eexists; reflexivity|]. cbn. constructor; [intros []|constructor].
    + split; [intros _; eexists; split; [reflexivity|]; intros b [<-|[<-|[<-|[]]]]; eexists; reflexivity|]. split; [lia|]. split; [reflexivity|lia].
  - eexists _, _. split; [vm_compute; reflexivity|]. split; [reflexivity|]. split; [reflexivity|]. split; reflexivity.
Qed.

(** A crash after the table of the current bans was added and before it was filled: the version is the current one
    already, so no later start fills it, and a permanent ban of the database is not restored any more. *)
Theorem C98_crash_refuted : exists d', In d' (o_trace (fst (open_db (fun _ => None) old_disk)))
  /\ forall dump backup n, let again := Nat.iter n (fun d => mkDisk (d_main (o_disk (fst (open_db dump d)))) None) (mkDisk (d_main d') backup) in
     snd (open_db dump again) = Opened
     /\ exists f db, d_main again = Some (Good f) /\ as_db f = Some db /\ restore "sshd" (mkJset (-1) false None 5) 2000 (fun _ => 2000) (fun _ => false) db = []
        /\ exists r, In r (db_bans db) /\ r_jail r = "sshd" /\ r_ip r = "192.0.2.1".
Proof.
  set (l := [mkRow "sshd" "192.0.2.1" 1000 (-2) 1 5 (Some ["a"]); mkRow "web" "192.0.2.1" 1500 (-2) 1 3 None; mkRow "sshd" "192.0.2.1" 900 (-2) 1 4 None]).
  set (u := unfilled old_file l). exists (mkDisk (Some (Good u)) (Some (Good old_file))). split; [vm_compute; auto|]. intros dump bk n again.
  assert (E : d_main again = Some (Good u)).
  { unfold again. clear again. set (step := fun d => mkDisk (d_main (o_disk (fst (open_db dump d)))) None). induction n as [|n IH]; [reflexivity|].
    change (d_main (step (Nat.iter n step (mkDisk (Some (Good u)) bk))) = Some (Good u)). cbn [d_main] in IH. revert IH. generalize (Nat.iter n step (mkDisk (Some (Good u)) bk)). intros x IH.
    unfold step. rewrite (open_current dump x u []); [exact IH|exact IH|reflexivity]. }
  rewrite (open_current dump again u []); [|exact E|reflexivity]. split; [reflexivity|]. eexists u, _. split; [exact E|]. split; [reflexivity|]. split; [reflexivity|].
  cbn [db_bans]. exists (mkRow "sshd" "192.0.2.1" 1000 (-2) 1 5 (Some ["a"])). split; [now left|split; reflexivity].
Qed.

(** ** C99: any other database *)
(** One of the current version is opened as it is. *)
Theorem C99_current : forall dump d f rest, d_main d = Some (Good f) -> f_version f = Some (4 :: rest) -> open_db dump d = (mkOpen d [d], Opened).
Proof. intros dump d f rest. apply open_current. Qed.
(** One of a later version is refused, and nothing is changed. *)
Theorem C99_future : forall dump d f v rest, d_main d = Some (Good f) -> f_version f = Some (v :: rest) -> 4 < v ->
  open_db dump d = (mkOpen d [d], Failed NotImplementedError).
Proof.
  intros dump d f v rest M V L. unfold open_db, connect, main_content. cbn [o_disk]. rewrite M, V. destruct (Z.eqb_spec v 4); [lia|]. destruct (Z.gtb_spec v 4); [reflexivity|lia].
Qed.
(** Without a file a new database is made: all tables, empty, in the current version. *)
Theorem C99_new : forall dump b, exists s, open_db dump (mkDisk None b) = (s, Opened)
  /\ o_disk s = mkDisk (Some (Good (mkFile (Some [4]) (Some []) (Some []) (Some (BansNew [])) (Some [])))) b.
Proof. intros dump b. eexists. split; [reflexivity|]. reflexivity. Qed.
(** A file without the version table gets all that is missing, and keeps what it has. *)
Theorem C99_partly : forall dump d f, d_main d = Some (Good f) -> f_version f = None ->
  exists s f', open_db dump d = (s, Opened) /\ o_disk s = mkDisk (Some (Good f')) (d_backup d) /\ current f' /\ extends f f'
  /\ forall d', In d' (o_trace s) -> exists g, d_main d' = Some (Good g) /\ extends f g.
Proof.
  intros dump d f M V. unfold open_db, connect. assert (MC : main_content (o_disk (mkOpen d [d])) = Good f) by (unfold main_content; cbn; now rewrite M).
  rewrite MC, V. exists (create (mkOpen d [d])), (full f). split; [reflexivity|]. destruct (create_spec _ f MC) as [E T]. split; [exact E|]. split; [apply full_current; auto|].
  split; [apply steps_extend; [exact V|]|].
  - rewrite <- full_last. unfold create_steps. cbn [last In]. repeat (try (left; reflexivity); right).
  - intros d' I. destruct (T d' I) as [[<-|[]]|(f' & I' & ->)].
    + exists f. split; [exact M|]. repeat split; auto.
    + exists f'. split; [reflexivity|]. now apply steps_extend.
Qed.

(** A damaged file is moved to the backup.  If its dump makes no file the start fails, and the next one makes a new
    database. *)
Theorem C99_damaged_lost : forall dump d, d_main d = Some Corrupt -> d_backup d = None -> dump Corrupt = None ->
  exists s, open_db dump d = (s, Failed OSError) /\ o_disk s = mkDisk None (Some Corrupt).
Proof.
  intros dump d M B D. unfold open_db, connect, main_content, repair. cbn [o_disk]. rewrite M, B. cbn. rewrite D. cbn. eexists. split; reflexivity.
Qed.
(** Otherwise the database is opened with all its tables in the current version, and the damaged file is kept as
    backup; a sound database of the dump is used as it is, an older one is upgraded. *)
Theorem C99_damaged_repaired : forall dump d c, d_main d = Some Corrupt -> d_backup d = None -> dump Corrupt = Some c ->
  exists s f, open_db dump d = (s, Opened) /\ o_disk s = mkDisk (Some (Good f)) (Some Corrupt) /\ current f
  /\ (forall g, c = Good g -> sound 4 g -> f = g)
  /\ (forall g v, c = Good g -> sound v g -> v < 4 -> exists l bips, sound 4 f /\ keeps g f l /\ f_bips f = Some bips /\ latest_bans l bips).
Proof.
  intros dump d c M B D.
  set (s1 := mkOpen (mkDisk (Some c) (Some Corrupt)) [mkDisk (Some c) (Some Corrupt); mkDisk None (Some Corrupt); d]).
  assert (OE : open_db dump d = let '(s, r) := if is_empty c then (s1, Failed RuntimeError) else connect_inner true s1 in
    match r with
    | Opened => (s, Opened)
    | Failed _ => match d_main (o_disk s) with None => (s, Failed OSError) | Some _ => connect_inner true (put (mkDisk None (d_backup (o_disk s))) s) end
    end).
  { unfold open_db, connect, main_content, repair. cbn [o_disk]. rewrite M, B. cbn [put o_disk d_backup d_main]. rewrite D. reflexivity. }
  rewrite OE. clear OE.
  assert (B1 : backed [d] Corrupt s1).
  { split; [reflexivity|]. cbn. intros d' [<-|[<-|[<-|[]]]]; auto. }
  assert (NE : forall v g, c = Good g -> sound v g -> is_empty c = false).
  { intros v g -> [V _]. unfold is_empty. now rewrite V. }
  assert (S4 : forall g, c = Good g -> sound 4 g -> connect_inner true s1 = (create s1, Opened) /\ o_disk (create s1) = mkDisk (Some (Good g)) (Some Corrupt)).
  { intros g -> Sg. assert (C : current g) by (now apply (sound_current 4)). split; [now apply (inner_current s1 g)|]. rewrite (proj1 (create_spec s1 g eq_refl)). now rewrite full_id. }
  assert (SU : forall g v, c = Good g -> sound v g -> v < 4 -> snd (connect_inner true s1) = Opened
     /\ exists l, same_bans (f_bans g) l /\ sound 4 (final g l) /\ o_disk (fst (connect_inner true s1)) = mkDisk (Some (Good (final g l))) (Some Corrupt)).
  { intros g v -> Sg L. destruct (sound_on_way v g Sg L) as (l & W & SB).
    assert (SF : sound 4 (final g l)) by (apply (sound_final v g l _ (newest l [])); [exact Sg|eauto|reflexivity]).
    destruct (update_on_way s1 g v l eq_refl W) as (U1 & U2).
    unfold connect_inner, main_content. cbn [s1 o_disk d_main]. rewrite (so_version v g Sg). destruct (Z.eqb_spec v 4); [lia|]. destruct (Z.gtb_spec v 4); [lia|].
    destruct (update v s1) as [s' r]. cbn [fst snd] in U1, U2. subst r. change (4 =? 4) with true. cbn [fst snd]. split; [reflexivity|]. exists l. split; [exact SB|]. split; [exact SF|].
    rewrite (proj1 (create_spec s' (final g l) ltac:(unfold main_content; now rewrite U2))). rewrite U2. cbn [d_backup].
    rewrite full_id by (now apply (sound_current 4)). reflexivity. }
  destruct (is_empty c) eqn:Em.
  - destruct (new_opened true (put (mkDisk None (Some Corrupt)) s1) eq_refl) as [N1 N2]. cbn [put_main put o_disk d_main d_backup] in *.
    destruct (connect_inner true _) as [s r] in N1, N2 |- *. cbn [fst snd] in N1, N2. subst r. exists s, (full empty_file). split; [reflexivity|]. split; [exact N2|].
    split; [apply full_current; now left|]. split.
    + intros g E Sg. pose proof (NE 4 g E Sg) as X. congruence.
    + intros g v E Sg. pose proof (NE v g E Sg) as X. congruence.
  - pose proof (backed_inner [d] Corrupt true s1 B1) as B2. assert (K1 : d_backup (o_disk s1) <> None) by (unfold s1; discriminate). assert (K2 : d_main (o_disk s1) <> None) by (unfold s1; discriminate). pose proof (inner_opened s1 K1) as IO.
    pose proof (inner_main s1 K2) as IM.
    destruct (connect_inner true s1) as [s2 r]. cbn [fst snd] in *. destruct r as [|e].
    + destruct (IO eq_refl) as (f & F1 & F2). exists s2, f. split; [reflexivity|]. split; [destruct B2 as [B2 _]; destruct (o_disk s2) as [m b]; cbn in *; congruence|]. split; [exact F2|]. split.
      * intros g E Sg. destruct (S4 g E Sg) as [X Y]. injection X as ->. rewrite Y in F1. cbn in F1. congruence.
      * intros g v E Sg L. destruct (SU g v E Sg L) as [_ (l & SB & SF & X)]. rewrite X in F1. cbn in F1. injection F1 as <-. exists l, (newest l []). split; [exact SF|].
        split; [repeat split; exact SB|]. split; [reflexivity|apply newest_spec].
    + destruct B2 as [B2 _]. destruct (d_main (o_disk s2)) as [m|]; [|congruence].
      rewrite B2. destruct (new_opened true (put (mkDisk None (Some Corrupt)) s2) eq_refl) as [N1 N2]. cbn [put o_disk d_backup] in N1, N2. cbn [put o_disk d_backup].
      destruct (connect_inner true _) as [s r]. cbn [fst snd] in N1, N2. subst r. exists s, (full empty_file). split; [reflexivity|]. split; [exact N2|].
      split; [apply full_current; now left|]. split.
      * intros g E Sg. destruct (S4 g E Sg) as [X _]. discriminate.
      * intros g v E Sg L. destruct (SU g v E Sg L) as [X _]. discriminate.
Qed.

(** Whatever the file is: at any point of the start it is there as it was, in place or as the backup, or it only got
    tables it had not. *)
Theorem C99_kept : forall dump c, let '(s, _) := open_db dump (mkDisk (Some c) None) in
  forall d', In d' (o_trace s) -> d_main d' = Some c \/ d_backup d' = Some c
  \/ exists f g, c = Good f /\ f_version f = None /\ d_main d' = Some (Good g) /\ extends f g.
Proof.
  intros dump c. set (d := mkDisk (Some c) None).
  assert (H : forall s, backed [d] c s -> forall d', In d' (o_trace s) -> d_main d' = Some c \/ d_backup d' = Some c
     \/ exists f g, c = Good f /\ f_version f = None /\ d_main d' = Some (Good g) /\ extends f g).
  { intros s [_ T] d' I. destruct (T d' I) as [[<-|[]]|E]; auto. }
  assert (H0 : forall d', In d' [d] -> d_main d' = Some c \/ d_backup d' = Some c \/ exists f g, c = Good f /\ f_version f = None /\ d_main d' = Some (Good g) /\ extends f g).
  { intros d' [<-|[]]. now left. }
  destruct c as [|f].
  - assert (R : backed [d] Corrupt (fst (open_db dump d))).
    { unfold open_db, connect, main_content. cbn [o_disk d d_main]. unfold repair. cbn [put o_disk d_backup d_main d]. apply (backed_repair_from dump [d] Corrupt).
      split; [reflexivity|]. cbn. intros d' [<-|[<-|[]]]; auto. }
    destruct (open_db dump d) as [s r]. now apply H.
  - destruct (f_version f) as [[|v rest]|] eqn:V.
    + unfold open_db, connect, main_content. cbn [o_disk d d_main]. rewrite V. exact H0.
    + unfold open_db, connect, main_content. cbn [o_disk d d_main]. rewrite V. destruct (v =? 4); [exact H0|]. destruct (v >? 4); [exact H0|].
      assert (U : backed [d] (Good f) (fst (update v (mkOpen d [d])))) by now apply update_backs.
      fold d. destruct (update v (mkOpen d [d])) as [s [v'|]]; [now apply H|].
      pose proof (backed_repair dump [d] (Good f) s U) as R. destruct (repair dump s) as [s' [|e]]; now apply H.
    + destruct (C99_partly dump d f eq_refl V) as (s & f' & E & _ & _ & _ & T). rewrite E. intros d' I. destruct (T d' I) as (g & G & X). right. right. exists f, g. auto.
Qed.

(** A crash while a new database is created can leave a version table without a row: then every later start
    fails, and nothing is repaired. *)
Theorem C99_stuck_refuted : exists d', In d' (o_trace (fst (open_db (fun _ => None) (mkDisk None None))))
  /\ forall dump, open_db dump d' = (mkOpen d' [d'], Failed TypeError).
Proof. exists (mkDisk (Some (Good (mkFile (Some []) None None None None))) None). split; [vm_compute; auto 10|]. reflexivity. Qed.
(** An upgrade that is not possible: the start fails although afterwards a new database is in place, without a
    single ban of the old one, so that the next start knows none of them. *)
Definition bad_file : file := mkFile (Some [1]) (Some [("sshd", true)]) (Some [mkLog "sshd" "/var/log/auth.log" None 0; mkLog "sshd" "/var/log/auth.log" None 40])
  (Some (BansOld [mkOld "sshd" "192.0.2.1" 1000 5 None])) None.
Theorem C99_failed_upgrade_refuted : exists s f, open_db Some (mkDisk (Some (Good bad_file)) None) = (s, Failed RuntimeError)
  /\ o_disk s = mkDisk (Some (Good f)) (Some (Good bad_file)) /\ f_bans f = Some (BansNew []) /\ f_bips f = Some [] /\ snd (open_db Some (o_disk s)) = Opened.
Proof. eexists _, _. split; [vm_compute; reflexivity|]. split; [reflexivity|]. split; [reflexivity|]. split; reflexivity. Qed.

Example C99_demo : let d := mkDisk (Some Corrupt) None in
  (exists s, open_db (fun _ => Some (Good old_file)) d = (s, Opened) /\ option_map (fun c => match c with Good f => option_map (@length _) (f_bips f) | Corrupt => None end) (d_main (o_disk s)) = Some (Some 2%nat))
  /\ (exists s, open_db (fun _ => Some Corrupt) d = (s, Opened) /\ length (o_trace s) = 16%nat)
  /\ snd (open_db (fun _ => None) d) = Failed OSError.
Proof. split; [eexists; split; [vm_compute; reflexivity|reflexivity]|]. split; [eexists; split; [vm_compute; reflexivity|reflexivity]|reflexivity]. Qed.

Print Assumptions C98_upgrade.
Print Assumptions C98_crash.
Print Assumptions C98_backup.
Print Assumptions C98_restored.
Print Assumptions C98_demo.
Print Assumptions C98_crash_refuted.
Print Assumptions C99_current.
Print Assumptions C99_future.
Print Assumptions C99_new.
Print Assumptions C99_partly.
Print Assumptions C99_damaged_lost.
Print Assumptions C99_damaged_repaired.
Print Assumptions C99_kept.
Print Assumptions C99_stuck_refuted.
Print Assumptions C99_failed_upgrade_refuted.
Print Assumptions C99_demo.
