(** C116-C118: where the server logs, rotation of its log and its level. *)
From Verif Require Import Base Text Logs_Model Logs_Spec Logs_Proofs.
Local Open Scope string_scope. Local Open Scope list_scope. Local Open Scope Z_scope.

(** * Example *)
Definition lv (v : text) : option Z := if eqb v (tx "INFO") then Some 20 else if eqb v (tx "ERROR") then Some 40 else None.
Definition w0 : world := mkW (fun p => negb (eqb p (tx "/no/f.log"))) (fun k => if eqb k (tx "/dev/log") || eqb k (tx "/run/log") then Answers else NoSocket) false (Some (tx "/dev/log")) lv.
Definition s_none : logs := init [HErr; HErr] 10 [(tx "/var/f.log", 0%nat)] 1.
Definition h_file : list op := [OLevel w0 (tx "info"); OTarget w0 (tx "/var/f.log") None; OLog w0 20 (tx "a"); OTarget w0 (tx "/no/f.log") None; OLog w0 10 (tx "b"); OLog w0 40 (tx "c")].

(** * C116: the target *)
(** After any history in which nobody asks for INHERITED, a message of the level or above is written once, and to the target getLogTarget tells of,
    unless that is a file that is not open and cannot be opened. *)
Theorem C116_once h lvl0 f n l w lvl m t : Forall own_target l -> let s := run (init h lvl0 f n) l in
  target s = Some t -> loglevel s <= lvl -> (is_file t -> w_open w t = true) ->
  exists k, written (log w lvl m s) = written s ++ [(k, m)] /\ went_to t k.
Proof.
  intros F s T L W. pose proof (run_one h lvl0 f n l F) as O. fold s in O. apply log_one; try assumption. destruct (O t T) as (hd & H & X). destruct hd as [p i|k c| | |]; cbn in X.
  - left. apply W, X.
  - right. intros i. left. rewrite H. discriminate.
  - right. intros i. left. rewrite H. discriminate.
  - right. intros i. left. rewrite H. discriminate.
  - right. intros i. left. rewrite H. discriminate.
Qed.
(** Setting another target with success: it is the target, and for a file the next message is in the file of this name.  Nothing that was
    written is touched, and the level stays. *)
Theorem C116_set h lvl0 f n l w t o lvl m : Forall own_target l -> ~ is_named t "INHERITED" -> let s := run (init h lvl0 f n) l in
  target s <> Some t -> snd (set_target w t o s) = RTrue -> let s' := fst (set_target w t o s) in
  target s' = Some t /\ written s' = written s /\ loglevel s' = loglevel s /\ level s' = level s
  /\ (loglevel s <= lvl -> exists k, written (log w lvl m s') = written s ++ [(k, m)] /\ went_to t k /\ (is_file t -> exists i, k = SFile i /\ dget t (files s') = Some i)).
Proof.
  intros F NI s NT R. pose proof (target_cases w t o s NI) as C. destruct (set_target w t o s) as [s' r]. cbn in *. subst r.
  destruct C as [(T & _)|[(_ & _ & T & W & L & V & hd & H & X & Y)|(N & _)]]; [contradiction| |contradiction].
  repeat split; try assumption. intros LL. unfold log. replace (lvl <? loglevel s') with false by lia. rewrite H. cbn [emit].
  destruct hd as [p i|k c| | |]; cbn in X; try (eexists; split; [cbn; rewrite W; reflexivity|]; split; [exact X|]; intros (A & B & C & D & E & G); try contradiction; destruct X; contradiction).
  destruct X as [-> X]. destruct Y as (i0 & -> & Y). eexists. split; [cbn; rewrite W; reflexivity|]. split; [exact X|]. intros _. now exists i0.
Qed.
(** A target that cannot be had is refused, and then all is as before: the target told of, the places messages go to, the files, the level. *)
Theorem C116_refused w t o s : snd (set_target w t o s) <> RTrue -> let s' := fst (set_target w t o s) in
  target s' = target s /\ handlers s' = handlers s /\ written s' = written s /\ loglevel s' = loglevel s /\ level s' = level s /\ files s' = files s.
Proof.
  intros R. destruct (eqb_spec (upper t) (tx "INHERITED")) as [E|E].
  { exfalso. apply R. unfold set_target. rewrite E, eqb_refl. now destruct (eqb (target s) _). }
  pose proof (target_cases w t o s E) as C. destruct (set_target w t o s) as [s' r]. cbn in *.
  destruct C as [(_ & _ & ->)|[(_ & -> & _)|(_ & H)]]; [contradiction|contradiction|exact H].
Qed.
(** It is refused in these cases only. *)
Theorem C116_when w t o s : snd (set_target w t o s) = RTrue <->
  target s = Some t \/ is_named t "INHERITED" \/ (is_named t "SYSTEMD-JOURNAL" /\ w_journal w = true)
  \/ (is_named t "SYSLOG" /\ exists k, (if eqb (socket s) (Some (tx "auto")) then w_auto w else socket s) = Some k /\ w_socket w k = Answers)
  \/ is_named t "STDOUT" \/ is_named t "SYSOUT" \/ is_named t "STDERR" \/ (is_file t /\ w_open w t = true).
Proof.
  unfold set_target, is_file, is_named. destruct (eqb_spec (target s) (Some t)) as [E|E]; [tauto|].
  destruct (eqb_spec (upper t) (tx "INHERITED")) as [X|X]; [tauto|].
  destruct (eqb_spec (upper t) (tx "SYSTEMD-JOURNAL")) as [J|J].
  { rewrite J. destruct (w_journal w); [tauto|]. split; [discriminate|]. intros [?|[Y|[[_ Y]|[[Y _]|[Y|[Y|[Y|[[_ [Y _]] _]]]]]]]]; try contradiction; try discriminate. }
  destruct (eqb_spec (upper t) (tx "SYSLOG")) as [Y|Y].
  { rewrite Y. set (s1 := if eqb (socket s) (Some (tx "auto")) then with_socket (w_auto w) s else s).
    replace (if eqb (socket s) (Some (tx "auto")) then w_auto w else socket s) with (socket s1) by (unfold s1; now destruct (eqb (socket s) (Some (tx "auto")))).
    destruct (socket s1) as [k|].
    - destruct (w_socket w k) eqn:K; (split; [try discriminate|]).
      + intros [?|[Z|[[Z _]|[(_ & k' & A & B)|[Z|[Z|[Z|[(_ & _ & Z & _) _]]]]]]]]; try contradiction; try discriminate. injection A as <-. congruence.
      + intros [?|[Z|[[Z _]|[(_ & k' & A & B)|[Z|[Z|[Z|[(_ & _ & Z & _) _]]]]]]]]; try contradiction; try discriminate. injection A as <-. congruence.
      + intros _. right. right. right. left. split; [reflexivity|]. now exists k.
      + reflexivity.
    - split; [discriminate|]. intros [?|[Z|[[Z _]|[(_ & k' & A & B)|[Z|[Z|[Z|[(_ & _ & Z & _) _]]]]]]]]; try contradiction; discriminate. }
  destruct (eqb_spec (upper t) (tx "STDOUT")) as [O|O]; [cbn; tauto|]. destruct (eqb_spec (upper t) (tx "SYSOUT")) as [O2|O2]; [cbn; tauto|]. cbn [orb].
  destruct (eqb_spec (upper t) (tx "STDERR")) as [Q|Q]; [cbn; tauto|]. destruct (w_open w t) eqn:WO.
  - destruct (open_file s t) as [s1 i]. cbn. tauto.
  - cbn. split; [discriminate|]. intros [?|[Z|[[Z _]|[(Z & _)|[Z|[Z|[Z|[_ Z]]]]]]]]; try contradiction; discriminate.
Qed.
Theorem C116_demo : Forall own_target h_file /\ target (run s_none h_file) = Some (tx "/var/f.log")
  /\ written (run s_none h_file) = [(SFile 0, tx "a"); (SFile 0, tx "c")]
  /\ map (fun t => snd (set_target w0 t None (run s_none h_file))) (map tx ["/no/f.log"; "syslog"; "stdout"; "systemd-journal"; "/new.log"]) = [RFalse; RFalse; RTrue; RRaised; RTrue].
Proof. repeat split; try (vm_compute; reflexivity). repeat constructor; cbn; try (intros X; vm_compute in X; discriminate X). Qed.
(** Setting the socket of syslog while syslog is the target answers True and getSyslogSocket tells of the new socket, but messages go to the
    old one: setLogTarget is called for the target there is already, and returns at once. *)
Theorem C116_socket_refuted :
  let s := run s_none [OSocket w0 (tx "/dev/log"); OTarget w0 (tx "SYSLOG") None] in
  snd (set_socket w0 (tx "/run/log") s) = RTrue /\ socket (fst (set_socket w0 (tx "/run/log") s)) = Some (tx "/run/log")
  /\ w_socket w0 (tx "/run/log") = Answers
  /\ written (log w0 40 (tx "m") (fst (set_socket w0 (tx "/run/log") s))) = [(SSyslog (tx "/dev/log") (tx "DAEMON"), tx "m")].
Proof. vm_compute. repeat split. Qed.
(** Setting the target there is already with other options answers True, but the options are not applied. *)
Theorem C116_options_refuted :
  let s := run s_none [OSocket w0 (tx "auto"); OTarget w0 (tx "SYSLOG") (Some (tx "local0"))] in
  snd (set_target w0 (tx "SYSLOG") (Some (tx "local1")) s) = RTrue
  /\ written (log w0 40 (tx "m") (fst (set_target w0 (tx "SYSLOG") (Some (tx "local1")) s))) = [(SSyslog (tx "/dev/log") (tx "LOCAL0"), tx "m")].
Proof. vm_compute. repeat split. Qed.
(** What does reach syslog: the first time, the socket and the facility asked for, and DAEMON for none or one that is not known. *)
Theorem C116_syslog w t o s k lvl m : is_named t "SYSLOG" -> target s <> Some t -> (if eqb (socket s) (Some (tx "auto")) then w_auto w else socket s) = Some k -> w_socket w k = Answers -> loglevel s <= lvl ->
  exists fac, written (log w lvl m (fst (set_target w t o s))) = written s ++ [(SSyslog k fac, m)] /\ socket (fst (set_target w t o s)) = Some k
  /\ match o with Some x => (In (upper x) facilities -> fac = upper x) /\ (~ In (upper x) facilities -> fac = tx "DAEMON") | None => fac = tx "DAEMON" end.
Proof.
  unfold is_named. intros Y NT K A L. exists (facility_of o). unfold set_target. destruct (eqb_spec (target s) (Some t)); [contradiction|]. rewrite Y. cbn [eqb].
  replace (eqb (tx "SYSLOG") (tx "INHERITED")) with false by (vm_compute; reflexivity). replace (eqb (tx "SYSLOG") (tx "SYSTEMD-JOURNAL")) with false by (vm_compute; reflexivity). rewrite eqb_refl.
  set (s1 := if eqb (socket s) (Some (tx "auto")) then with_socket (w_auto w) s else s).
  assert (S1 : socket s1 = Some k /\ loglevel s1 = loglevel s /\ written s1 = written s) by (unfold s1; destruct (eqb (socket s) (Some (tx "auto"))); repeat split; exact K).
  destruct S1 as (S1 & S2 & S3). rewrite S1, A. cbn [fst]. split; [|split].
  - unfold log. cbn [loglevel with_target]. rewrite S2. replace (lvl <? loglevel s) with false by lia. cbn. now rewrite S3.
  - exact S1.
  - destruct o as [x|]; [|reflexivity]. unfold facility_of. split; intros I1.
    + now replace (inb (upper x) facilities) with true by (symmetry; now apply inb_In).
    + now replace (inb (upper x) facilities) with false by (symmetry; now apply inb_false).
Qed.

(** * C117: rotation *)
(** With a file as the target: flushLogs, a message, the file is moved away, another message, flushLogs, a third message.  The first two are in
    the file moved away, under its new name, the third one in a new file of the old name; nothing is lost or written twice. *)
Theorem C117_rotate h lvl0 f n l w t q a b c m0 m1 m2 : Forall own_target l -> proper_files f n -> let s := run (init h lvl0 f n) l in
  target s = Some t -> is_file t -> w_open w t = true -> q <> t -> loglevel s <= a -> loglevel s <= b -> loglevel s <= c ->
  let s' := run s [OFlush w; OLog w a m0; ORename t q; OLog w b m1; OFlush w; OLog w c m2] in
  exists i j, written s' = written s ++ [(SFile i, m0); (SFile i, m1); (SFile j, m2)] /\ dget q (files s') = Some i /\ dget t (files s') = Some j /\ i <> j
    /\ (forall i0, dget t (files s) = Some i0 -> i = i0) /\ target s' = Some t.
Proof.
  intros F P s T FI WO NQ LA LB LC. pose proof (run_one h lvl0 f n l F) as O. pose proof (run_good h lvl0 f n l P) as G. fold s in O, G.
  destruct (one_file s t O FI T) as (i0 & H). unfold run. cbn [fold_left step].
  pose proof (flush_file w s t i0 FI T H G) as FL. destruct (flush w s) as [s1 r1] eqn:F1. rewrite WO in FL. destruct FL as (_ & G1 & T1 & L1 & W1 & i & H1 & D1 & N1 & K1). cbn [fst].
  rewrite (log_open w a m0 s1 t i) by (try exact H1; lia). set (s2 := write_to (SFile i) m0 s1).
  assert (I1 : (i < fresh s1)%nat) by (destruct G1 as [_ X]; now apply (X t)).
  assert (R : rename t q s2 = with_files (dset q i (ddel t (files s1))) (fresh s1) s2).
  { unfold rename. cbn [s2 write_to files]. rewrite D1. destruct (eqb_spec t q); [congruence|reflexivity]. }
  assert (G3 : good (rename t q s2)) by exact (step_good s2 (ORename t q) G1). rewrite R in *. set (s3 := with_files _ _ _) in *.
  rewrite (log_open w b m1 s3 t i) by (cbn; first [exact H1|lia]). set (s4 := write_to (SFile i) m1 s3).
  pose proof (flush_file w s4 t (Some i) FI T1 H1 G3) as FL. destruct (flush w s4) as [s5 r5] eqn:F5. rewrite WO in FL. destruct FL as (_ & G5 & T5 & L5 & W5 & j & H5 & D5 & N5 & K5). cbn [fst].
  rewrite (log_open w c m2 s5 t j) by (first [exact H5|rewrite L5; cbn; lia]). exists i, j. cbn [write_to written files target].
  assert (NT : dget t (files s4) = None). { cbn. rewrite dget_dset_other by congruence. apply dget_ddel_same. exact (proj1 G1). }
  repeat split.
  - rewrite W5. cbn. rewrite W1. now rewrite <- !app_assoc.
  - rewrite K5 by exact NQ. cbn. apply dget_dset_same.
  - exact D5.
  - rewrite (N5 NT). cbn. lia.
  - intros x X. unfold flush in F1. rewrite T, no_flush_word, H in F1 by exact FI. cbn [rollover] in F1. rewrite WO in F1. unfold open_file in F1. rewrite X in F1. injection F1 as <- _. cbn in H1. now injection H1 as ->.
  - exact T5.
Qed.
(** What flushLogs answers for a file, and what it leaves. *)
Theorem C117_flush h lvl0 f n l w t : Forall own_target l -> proper_files f n -> let s := run (init h lvl0 f n) l in target s = Some t -> is_file t ->
  let '(s', r) := flush w s in target s' = Some t /\ written s' = written s /\ (forall q, q <> t -> dget q (files s') = dget q (files s)) /\ (r = RText (tx "rolled over") <-> w_open w t = true) /\ (r = RRaised <-> w_open w t = false).
Proof.
  intros F P s T FI. pose proof (run_one h lvl0 f n l F) as O. pose proof (run_good h lvl0 f n l P) as G. fold s in O, G.
  destruct (one_file s t O FI T) as (i0 & H). pose proof (flush_file w s t i0 FI T H G) as FL. destruct (flush w s) as [s1 r1]. destruct (w_open w t).
  - destruct FL as (-> & _ & T1 & _ & W1 & i & _ & _ & _ & K). repeat split; try assumption; try discriminate.
  - destruct FL as (-> & T1 & _ & W1 & K). repeat split; try assumption; try discriminate. intros q _. now rewrite K.
Qed.
(** For the other targets, written in upper case, nothing changes. *)
Theorem C117_others w s x : In x ["STDERR"; "STDOUT"; "SYSLOG"; "SYSTEMD-JOURNAL"] -> target s = Some (tx x) -> flush w s = (s, RText (tx "flushed")).
Proof.
  intros I1 T. unfold flush. replace (inb (target s) _) with true; [reflexivity|]. symmetry. apply inb_In. rewrite T. exact (in_map (fun x => Some (tx x)) _ _ I1).
Qed.
(** Setting the same file as the target again after it has been moved away answers True, but messages go on to the file moved away: only
    flushLogs opens the file anew. *)
Theorem C117_again_refuted :
  let s := run s_none (h_file ++ [ORename (tx "/var/f.log") (tx "/var/f.log.1")]) in
  snd (set_target w0 (tx "/var/f.log") None s) = RTrue
  /\ let s' := log w0 40 (tx "d") (fst (set_target w0 (tx "/var/f.log") None s)) in
     written s' = written s ++ [(SFile 0, tx "d")] /\ dget (tx "/var/f.log.1") (files s') = Some 0%nat /\ dget (tx "/var/f.log") (files s') = None.
Proof. vm_compute. repeat split. Qed.
(** When the file cannot be opened again, flushLogs raises, and messages are lost until it can. *)
Theorem C117_closed_refuted :
  let wn := mkW (fun _ => false) (w_socket w0) false None lv in
  let s := fst (flush wn (run s_none h_file)) in
  snd (flush wn (run s_none h_file)) = RRaised /\ written (log wn 40 (tx "d") s) = written s /\ target s = Some (tx "/var/f.log").
Proof. vm_compute. repeat split. Qed.
Theorem C117_demo : proper_files (files s_none) 1 /\ is_file (tx "/var/f.log") /\
  written (run s_none (h_file ++ [OFlush w0; OLog w0 20 (tx "1"); ORename (tx "/var/f.log") (tx "/var/f.log.1"); OLog w0 20 (tx "2"); OFlush w0; OLog w0 20 (tx "3")]))
  = [(SFile 0, tx "a"); (SFile 0, tx "c"); (SFile 0, tx "1"); (SFile 0, tx "2"); (SFile 1, tx "3")].
Proof.
  split; [|split; [|vm_compute; reflexivity]].
  - split; [repeat constructor; intros []|]. intros p i E. apply dget_In in E. destruct E as [E|[]]. injection E as _ <-. lia.
  - unfold is_file, is_named. repeat split; intros X; vm_compute in X; discriminate X.
Qed.

(** * C118: the level *)
(** After any history: the level told of is in force.  Messages below it are not written, and with the others nothing of this changes. *)
Theorem C118_level L h lvl0 f n l w v m lvl t : Forall (levels_are L) l -> Forall own_target l -> let s := run (init h lvl0 f n) l in
  level s = Some v -> target s = Some t -> (is_file t -> w_open w t = true) ->
  exists b, L v = Some b /\ (lvl < b -> log w lvl m s = s) /\ (b <= lvl -> exists k, written (log w lvl m s) = written s ++ [(k, m)]).
Proof.
  intros F FO s V T W. pose proof (run_level L h lvl0 f n l F v V) as B. fold s in B. exists (loglevel s). split; [exact B|]. split; [apply log_below|].
  intros LE. destruct (C116_once h lvl0 f n l w lvl m t FO T LE W) as (k & K & _). now exists k.
Qed.
(** Setting the level: a name that is known, in any case of letters, is in force and told of in upper case; another one is refused and changes nothing.
    Nothing else is touched. *)
Theorem C118_set L h lvl0 f n l w v : Forall (levels_are L) l -> w_levels w = L -> let s := run (init h lvl0 f n) l in
  let '(s', r) := set_level w v s in
  match L (upper v) with
  | Some b => r <> RRaised /\ level s' = Some (upper v) /\ loglevel s' = b
  | None => r = RRaised /\ s' = s
  end /\ handlers s' = handlers s /\ written s' = written s /\ target s' = target s /\ files s' = files s.
Proof.
  intros F W s. pose proof (run_level L h lvl0 f n l F) as LV. fold s in LV. unfold set_level. destruct (eqb_spec (level s) (Some (upper v))) as [E|E].
  - rewrite (LV _ E). repeat split; [discriminate|exact E].
  - rewrite W. destruct (L (upper v)); repeat split. discriminate.
Qed.
(** The level is changed by nothing else. *)
Theorem C118_only s o : (forall w v, o <> OLevel w v) -> level (fst (step s o)) = level s /\ loglevel (fst (step s o)) = loglevel s.
Proof.
  intros N. destruct o as [w t o|w k|w v|w|w lv m|p q]; cbn [step].
  - destruct (eqb_spec (upper t) (tx "INHERITED")) as [E|E].
    { unfold set_target. rewrite E, eqb_refl. destruct (eqb (target s) _); split; reflexivity. }
    pose proof (target_cases w t o s E) as C. destruct (set_target w t o s) as [s' r]. cbn. destruct C as [(_ & -> & _)|[(_ & _ & _ & _ & A & B & _)|(_ & _ & _ & _ & A & B & _)]]; split; auto.
  - destruct (socket_same w k s) as (_ & _ & _ & _ & _ & A & B). now split.
  - now destruct (N w v).
  - unfold flush. destruct (inb (target s) _); [now split|]. destruct (rollover w (handlers s) s) as [[h s'] ok] eqn:R. destruct (rollover_kind _ _ _ _ _ _ R) as (_ & _ & _ & A & B). now split.
  - unfold log. destruct (lv <? loglevel s); [now split|]. destruct (emit w m (handlers s) s) as [h s'] eqn:R. destruct (emit_kind _ _ _ _ _ _ R) as (_ & _ & A & B). now split.
  - unfold rename. destruct (dget p (files s)); [|now split]. destruct (eqb p q); now split.
Qed.
Theorem C118_demo : Forall (levels_are lv) h_file /\ level (run s_none h_file) = Some (tx "INFO") /\ w_levels w0 = lv
  /\ snd (set_level w0 (tx "loud") (run s_none h_file)) = RRaised /\ loglevel (fst (set_level w0 (tx "Error") (run s_none h_file))) = 40.
Proof. repeat split; try (vm_compute; reflexivity). repeat constructor. Qed.

Print Assumptions C116_once.
Print Assumptions C116_set.
Print Assumptions C116_refused.
Print Assumptions C116_when.
Print Assumptions C116_demo.
Print Assumptions C116_socket_refuted.
Print Assumptions C116_options_refuted.
Print Assumptions C116_syslog.
Print Assumptions C117_rotate.
Print Assumptions C117_flush.
Print Assumptions C117_others.
Print Assumptions C117_again_refuted.
Print Assumptions C117_closed_refuted.
Print Assumptions C117_demo.
Print Assumptions C118_level.
Print Assumptions C118_set.
Print Assumptions C118_only.
Print Assumptions C118_demo.
