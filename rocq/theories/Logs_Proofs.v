(** Proofs about the logging of the server. *)
From Verif Require Import Base Text Logs_Model Logs_Spec.
Local Open Scope string_scope. Local Open Scope list_scope. Local Open Scope Z_scope.

(** * One handler, for the target *)
Definition fits (t : text) (h : handler) : Prop :=
  match h with
  | HFile p _ => p = t /\ is_file t
  | HSyslog _ _ => is_named t "SYSLOG"
  | HOut => is_named t "STDOUT" \/ is_named t "SYSOUT"
  | HErr => is_named t "STDERR"
  | HJournal => is_named t "SYSTEMD-JOURNAL"
  end.
Definition one (s : logs) : Prop := forall t, target s = Some t -> exists h, handlers s = [h] /\ fits t h.
Lemma open_keeps s p s' n : open_file s p = (s', n) -> target s' = target s /\ handlers s' = handlers s /\ written s' = written s /\ loglevel s' = loglevel s /\ level s' = level s /\ socket s' = socket s.
Proof. unfold open_file. destruct (dget p (files s)); intros H; injection H as <- <-; repeat split. Qed.
Ltac teqb := repeat match goal with |- context[eqb ?a ?b] => destruct (eqb_spec a b) end.
(** what setting a target does *)
Lemma target_cases w t f s : ~ is_named t "INHERITED" ->
  let '(s', r) := set_target w t f s in
  (target s = Some t /\ s' = s /\ r = RTrue) \/
  (target s <> Some t /\ r = RTrue /\ target s' = Some t /\ written s' = written s /\ loglevel s' = loglevel s /\ level s' = level s
    /\ exists h, handlers s' = [h] /\ fits t h /\ match h with HFile p i => exists n, i = Some n /\ dget p (files s') = Some n | _ => True end) \/
  (r <> RTrue /\ target s' = target s /\ handlers s' = handlers s /\ written s' = written s /\ loglevel s' = loglevel s /\ level s' = level s /\ files s' = files s).
Proof.
  intros NI. unfold set_target. destruct (eqb_spec (target s) (Some t)) as [E|E]; [left; now repeat split|].
  destruct (eqb_spec (upper t) (tx "INHERITED")) as [X|X]; [contradiction|].
  destruct (eqb_spec (upper t) (tx "SYSTEMD-JOURNAL")) as [J|J].
  { destruct (w_journal w); [right; left|right; right; repeat split; discriminate]. repeat split; try exact E. exists HJournal. repeat split. exact J. }
  destruct (eqb_spec (upper t) (tx "SYSLOG")) as [Y|Y].
  { set (s1 := if eqb (socket s) (Some (tx "auto")) then with_socket (w_auto w) s else s).
    assert (K : target s1 = target s /\ handlers s1 = handlers s /\ written s1 = written s /\ loglevel s1 = loglevel s /\ level s1 = level s /\ files s1 = files s)
      by (unfold s1; destruct (eqb (socket s) (Some (tx "auto"))); repeat split). destruct K as (K1 & K2 & K3 & K4 & K5 & K6).
    destruct (socket s1) as [k|]; [|right; right; repeat split; try assumption; discriminate].
    destruct (w_socket w k); [right; right; repeat split; try assumption; discriminate|right; right; repeat split; try assumption; discriminate|].
    right; left. repeat split; try assumption. eexists. repeat split. exact Y. }
  destruct (eqb_spec (upper t) (tx "STDOUT")) as [O|O].
  { right; left. repeat split; try exact E. exists HOut. repeat split. now left. }
  destruct (eqb_spec (upper t) (tx "SYSOUT")) as [O2|O2].
  { right; left. repeat split; try exact E. exists HOut. repeat split. now right. }
  cbn [orb]. destruct (eqb_spec (upper t) (tx "STDERR")) as [R|R].
  { right; left. repeat split; try exact E. exists HErr. repeat split. exact R. }
  destruct (w_open w t); [|right; right; repeat split; discriminate].
  destruct (open_file s t) as [s1 n] eqn:OP. destruct (open_keeps _ _ _ _ OP) as (A & B & C & D & F & _).
  right; left. repeat split; try assumption. exists (HFile t (Some n)). split; [reflexivity|]. split; [repeat split; assumption|].
  exists n. split; [reflexivity|]. cbn. unfold open_file in OP. destruct (dget t (files s)) eqn:G; injection OP as <- <-; [exact G|]. cbn. apply dget_dset_same.
Qed.
Lemma socket_same w k s : target (fst (set_socket w k s)) = target s /\ handlers (fst (set_socket w k s)) = handlers s /\ written (fst (set_socket w k s)) = written s
  /\ files (fst (set_socket w k s)) = files s /\ fresh (fst (set_socket w k s)) = fresh s /\ loglevel (fst (set_socket w k s)) = loglevel s /\ level (fst (set_socket w k s)) = level s.
Proof.
  unfold set_socket. destruct (eqb (socket s) (Some k)); [repeat split|]. cbn [with_socket target]. destruct (target s) as [t|] eqn:T; [|cbn; rewrite ?T; repeat split].
  destruct (eqb_spec t (tx "SYSLOG")) as [-> |N]; [|cbn; rewrite ?T; repeat split]. unfold set_target. cbn [with_socket target]. rewrite T, eqb_refl. cbn. rewrite ?T. repeat split.
Qed.
Definition same_kind (h h' : handler) : Prop := match h, h' with HFile p _, HFile p' _ => p = p' | HFile _ _, _ => False | _, _ => h = h' end.
Lemma fits_kind t h h' : same_kind h h' -> fits t h -> fits t h'.
Proof. destruct h, h'; cbn; intros K; try contradiction; try discriminate K; try (injection K as -> ->); try (subst; tauto); tauto. Qed.
Lemma rollover_kind w hs : forall s h s' ok, rollover w hs s = (h, s', ok) -> Forall2 same_kind hs h /\ target s' = target s /\ written s' = written s /\ loglevel s' = loglevel s /\ level s' = level s.
Proof.
  induction hs as [|x hs IH]; intros s h s' ok; cbn [rollover]; [intros H; injection H as <- <- <-; repeat split; constructor|].
  assert (SK : same_kind x x) by now destruct x. assert (RE : forall l, Forall2 same_kind l l) by (induction l; constructor; [now destruct a|assumption]). destruct x as [p i|k f| | |].
  - destruct (w_open w p).
    + destruct (open_file s p) as [s1 n] eqn:OP. destruct (open_keeps _ _ _ _ OP) as (A & B & C & D & E & _). destruct (rollover w hs s1) as [[r s2] ok2] eqn:R. intros H. injection H as <- <- <-.
      destruct (IH _ _ _ _ R) as (F & T & W & L & V). repeat split; try congruence. constructor; [reflexivity|exact F].
    + intros H. injection H as <- <- <-. repeat split. constructor; [reflexivity|apply RE].
  - destruct (rollover w hs s) as [[r s2] ok2] eqn:R. intros H. injection H as <- <- <-. destruct (IH _ _ _ _ R) as (F & T). split; [constructor; assumption|exact T].
  - destruct (rollover w hs s) as [[r s2] ok2] eqn:R. intros H. injection H as <- <- <-. destruct (IH _ _ _ _ R) as (F & T). split; [constructor; assumption|exact T].
  - destruct (rollover w hs s) as [[r s2] ok2] eqn:R. intros H. injection H as <- <- <-. destruct (IH _ _ _ _ R) as (F & T). split; [constructor; assumption|exact T].
  - destruct (rollover w hs s) as [[r s2] ok2] eqn:R. intros H. injection H as <- <- <-. destruct (IH _ _ _ _ R) as (F & T). split; [constructor; assumption|exact T].
Qed.
Lemma emit_kind w m hs : forall s h s', emit w m hs s = (h, s') -> Forall2 same_kind hs h /\ target s' = target s /\ loglevel s' = loglevel s /\ level s' = level s.
Proof.
  induction hs as [|x hs IH]; intros s h s'; cbn [emit]; [intros H; injection H as <- <-; repeat split; constructor|].
  destruct x as [p [n|]|k f| | |].
  2:{ destruct (w_open w p).
      - destruct (open_file s p) as [s1 n] eqn:OP. destruct (open_keeps _ _ _ _ OP) as (A & B & C & D & E & _). destruct (emit w m hs _) as [r s2] eqn:R. intros H. injection H as <- <-.
        destruct (IH _ _ _ R) as (F & T & L & V). cbn in T, L, V. repeat split; try congruence. constructor; [reflexivity|exact F].
      - destruct (emit w m hs s) as [r s2] eqn:R. intros H. injection H as <- <-. destruct (IH _ _ _ R) as (F & T). split; [constructor; [reflexivity|assumption]|exact T]. }
  all: destruct (emit w m hs _) as [r s2] eqn:R; intros H; injection H as <- <-; destruct (IH _ _ _ R) as (F & T); (split; [constructor; [reflexivity|assumption]|exact T]).
Qed.
Lemma one_kind s s' : one s -> target s' = target s -> Forall2 same_kind (handlers s) (handlers s') -> one s'.
Proof.
  intros O T F t E. rewrite T in E. destruct (O t E) as (h & H & X). rewrite H in F. inversion F as [|? h' ? l' K F' E1 E2]; subst. inversion F'; subst. exists h'. split; [congruence|]. now apply (fits_kind t h).
Qed.
Lemma same_refl l : Forall2 same_kind l l.
Proof. induction l as [|a l IH]; constructor; [now destruct a|exact IH]. Qed.
Lemma step_one s o : own_target o -> one s -> one (fst (step s o)).
Proof.
  intros OW O. destruct o as [w t f|w k|w v|w|w l m|p q]; cbn [step].
  - pose proof (target_cases w t f s OW) as C. destruct (set_target w t f s) as [s' r]. cbn [fst]. destruct C as [(_ & -> & _)|[(_ & _ & T & _ & _ & _ & h & H & F & _)|(_ & T & H & _)]].
    + exact O.
    + intros t' E. exists h. split; [exact H|]. rewrite T in E. injection E as <-. exact F.
    + intros t' E. rewrite H. apply O. congruence.
  - destruct (socket_same w k s) as (T & H & _). apply (one_kind s); [exact O|exact T|rewrite H; apply same_refl].
  - unfold set_level. destruct (eqb (level s) _); [exact O|]. destruct (w_levels w _); exact O.
  - unfold flush. destruct (inb (target s) _); [exact O|]. destruct (rollover w (handlers s) s) as [[h s'] ok] eqn:R. destruct (rollover_kind _ _ _ _ _ _ R) as (F & T & _).
    apply (one_kind s); [exact O|exact T|exact F].
  - unfold log. destruct (l <? loglevel s); [exact O|]. destruct (emit w m (handlers s) s) as [h s'] eqn:R. destruct (emit_kind _ _ _ _ _ _ R) as (F & T & _).
    apply (one_kind s); [exact O|exact T|exact F].
  - unfold rename. destruct (dget p (files s)); [|exact O]. destruct (eqb p q); exact O.
Qed.
Lemma run_inv (P : logs -> Prop) (Q : op -> Prop) : (forall s o, Q o -> P s -> P (fst (step s o))) -> forall l s, Forall Q l -> P s -> P (run s l).
Proof. intros ST. unfold run. induction l as [|o l IH]; intros s F H; [exact H|]. inversion_clear F. cbn [fold_left]. apply IH; [assumption|]. now apply ST. Qed.
Lemma run_one h lvl f n l : Forall own_target l -> one (run (init h lvl f n) l).
Proof. intros F. apply (run_inv one own_target step_one); [exact F|]. intros t E. discriminate. Qed.
Lemma log_one w lvl m s t : one s -> target s = Some t -> loglevel s <= lvl ->
  (w_open w t = true \/ forall i, handlers s <> [HFile t i] \/ i <> None) ->
  exists k, written (log w lvl m s) = written s ++ [(k, m)] /\ went_to t k.
Proof.
  intros O T L W. destruct (O t T) as (h & H & F). unfold log. replace (lvl <? loglevel s) with false by lia. rewrite H. cbn [emit].
  destruct h as [p [n|]|k f| | |]; cbn in F; try (eexists; split; [reflexivity|exact F]).
  - destruct F as [-> F]. eexists. split; [reflexivity|exact F].
  - destruct F as [-> F]. assert (WO : w_open w t = true) by (destruct W as [W|W]; [exact W|]; destruct (W None) as [X|X]; congruence). rewrite WO.
    destruct (open_file s t) as [s1 n] eqn:OP. destruct (open_keeps _ _ _ _ OP) as (A & B & C & _). eexists. split; [cbn; rewrite C; reflexivity|exact F].
Qed.
Lemma log_below w lvl m s : lvl < loglevel s -> log w lvl m s = s.
Proof. intros L. unfold log. now replace (lvl <? loglevel s) with true by lia. Qed.

(** * Files *)
Definition good (s : logs) : Prop := proper_files (files s) (fresh s).
Lemma open_good s p s' n : good s -> open_file s p = (s', n) -> good s' /\ dget p (files s') = Some n /\ (fresh s <= fresh s')%nat /\ (forall q, q <> p -> dget q (files s') = dget q (files s)) /\ (dget p (files s) = None -> n = fresh s).
Proof.
  intros [ND F]. unfold open_file. destruct (dget p (files s)) as [i|] eqn:G; intros H; injection H as <- <-.
  - repeat split; try assumption; [lia|discriminate].
  - repeat split; cbn.
    + now apply (dwf_dset p (fresh s) (files s)).
    + intros q i. destruct (eqb_spec q p) as [-> |N]; [rewrite dget_dset_same; intros E; injection E as <-; lia|].
      rewrite dget_dset_other by assumption. intros E. apply F in E. lia.
    + apply dget_dset_same.
    + lia.
    + intros q N. now apply dget_dset_other.
Qed.
Lemma good_same s s' : good s -> files s' = files s -> fresh s' = fresh s -> good s'.
Proof. unfold good. intros G -> ->. exact G. Qed.
Lemma rollover_good w hs : forall s h s' ok, good s -> rollover w hs s = (h, s', ok) -> good s'.
Proof.
  induction hs as [|x hs IH]; intros s h s' ok G; cbn [rollover]; [intros H; now injection H as <- <- <-|].
  destruct x as [p i|k f| | |].
  - destruct (w_open w p); [|intros H; now injection H as <- <- <-].
    destruct (open_file s p) as [s1 n] eqn:OP. destruct (open_good _ _ _ _ G OP) as (G1 & _). destruct (rollover w hs s1) as [[r s2] ok2] eqn:R. intros H. injection H as <- <- <-. exact (IH _ _ _ _ G1 R).
  - destruct (rollover w hs s) as [[r s2] ok2] eqn:R. intros H. injection H as <- <- <-. exact (IH _ _ _ _ G R).
  - destruct (rollover w hs s) as [[r s2] ok2] eqn:R. intros H. injection H as <- <- <-. exact (IH _ _ _ _ G R).
  - destruct (rollover w hs s) as [[r s2] ok2] eqn:R. intros H. injection H as <- <- <-. exact (IH _ _ _ _ G R).
  - destruct (rollover w hs s) as [[r s2] ok2] eqn:R. intros H. injection H as <- <- <-. exact (IH _ _ _ _ G R).
Qed.
Lemma emit_good w m hs : forall s h s', good s -> emit w m hs s = (h, s') -> good s'.
Proof.
  induction hs as [|x hs IH]; intros s h s' G; cbn [emit]; [intros H; now injection H as <- <-|].
  destruct x as [p [n|]|k f| | |].
  2:{ destruct (w_open w p).
      - destruct (open_file s p) as [s1 n] eqn:OP. destruct (open_good _ _ _ _ G OP) as (G1 & _). destruct (emit w m hs _) as [r s2] eqn:R. intros H. injection H as <- <-. refine (IH _ _ _ _ R). exact G1.
      - destruct (emit w m hs s) as [r s2] eqn:R. intros H. injection H as <- <-. exact (IH _ _ _ G R). }
  all: destruct (emit w m hs _) as [r s2] eqn:R; intros H; injection H as <- <-; refine (IH _ _ _ _ R); exact G.
Qed.
Lemma step_good s o : good s -> good (fst (step s o)).
Proof.
  intros G. destruct o as [w t f|w k|w v|w|w l m|p q]; cbn [step].
  - unfold set_target. destruct (eqb (target s) _); [exact G|]. destruct (eqb (upper t) (tx "INHERITED")); [exact G|].
    destruct (eqb (upper t) (tx "SYSTEMD-JOURNAL")); [destruct (w_journal w); exact G|].
    destruct (eqb (upper t) (tx "SYSLOG")).
    { destruct (eqb (socket s) (Some (tx "auto"))); (destruct (socket _) as [k|]; [destruct (w_socket w k)|]; exact G). }
    destruct (eqb (upper t) (tx "STDOUT") || eqb (upper t) (tx "SYSOUT")); [exact G|]. destruct (eqb (upper t) (tx "STDERR")); [exact G|].
    destruct (w_open w t); [|exact G]. destruct (open_file s t) as [s1 n] eqn:OP. destruct (open_good _ _ _ _ G OP) as (G1 & _). exact G1.
  - destruct (socket_same w k s) as (_ & _ & _ & A & B & _). now apply (good_same s).
  - unfold set_level. destruct (eqb (level s) _); [exact G|]. destruct (w_levels w _); exact G.
  - unfold flush. destruct (inb (target s) _); [exact G|]. destruct (rollover w (handlers s) s) as [[h s'] ok] eqn:R. exact (rollover_good _ _ _ _ _ _ G R).
  - unfold log. destruct (l <? loglevel s); [exact G|]. destruct (emit w m (handlers s) s) as [h s'] eqn:R. exact (emit_good _ _ _ _ _ _ G R).
  - unfold rename. destruct (dget p (files s)) as [n|] eqn:E; [|exact G]. destruct (eqb_spec p q) as [|N]; [exact G|]. destruct G as [ND F]. split; cbn.
    + apply (dwf_dset q n). now apply (dwf_ddel p).
    + intros x i. destruct (eqb_spec x q) as [-> |X]; [rewrite dget_dset_same; intros Y; injection Y as <-; now apply (F p)|].
      rewrite dget_dset_other by assumption. intros Y. destruct (eqb_spec x p) as [-> |XP]; [rewrite dget_ddel_same in Y by exact ND; discriminate|].
      rewrite dget_ddel_other in Y by assumption. now apply (F x).
Qed.
Lemma run_good h lvl f n l : proper_files f n -> good (run (init h lvl f n) l).
Proof. intros P. apply (run_inv good (fun _ => True)); [intros s o _; apply step_good|now apply Forall_forall|exact P]. Qed.
(** * Rotation *)
Lemma no_flush_word t : is_file t -> inb (Some t) (map (fun x => Some (tx x)) ["STDERR"; "STDOUT"; "SYSLOG"; "SYSTEMD-JOURNAL"]) = false.
Proof.
  intros (A & B & C & D & E & F). apply inb_false. unfold is_named in *. intros [X|[X|[X|[X|[]]]]]; injection X as <-.
  - now apply F.
  - now apply D.
  - now apply C.
  - now apply B.
Qed.
Lemma flush_file w s t i : is_file t -> target s = Some t -> handlers s = [HFile t i] -> good s ->
  let '(s', r) := flush w s in
  if w_open w t then r = RText (tx "rolled over") /\ good s' /\ target s' = Some t /\ loglevel s' = loglevel s /\ written s' = written s
       /\ exists n, handlers s' = [HFile t (Some n)] /\ dget t (files s') = Some n /\ (dget t (files s) = None -> n = fresh s) /\ (forall q, q <> t -> dget q (files s') = dget q (files s))
  else r = RRaised /\ target s' = Some t /\ handlers s' = [HFile t None] /\ written s' = written s /\ files s' = files s.
Proof.
  intros FI T H G. unfold flush. rewrite T, no_flush_word by exact FI. rewrite H. cbn [rollover]. destruct (w_open w t); [|repeat split; exact T].
  destruct (open_file s t) as [s1 n] eqn:OP. destruct (open_keeps _ _ _ _ OP) as (A & B & C & D & _). destruct (open_good _ _ _ _ G OP) as (G1 & E & _ & K & Q). cbn.
  repeat split; try congruence; try apply G1. exists n. repeat split; assumption.
Qed.
Lemma log_open w lvl m s t n : loglevel s <= lvl -> handlers s = [HFile t (Some n)] -> log w lvl m s = write_to (SFile n) m s.
Proof. intros L H. unfold log. replace (lvl <? loglevel s) with false by lia. rewrite H. cbn [emit]. unfold write_to, with_handlers. cbn. now rewrite H. Qed.
Lemma one_file s t : one s -> is_file t -> target s = Some t -> exists i, handlers s = [HFile t i].
Proof.
  intros O (A & B & C & D & E & F) T. destruct (O t T) as (h & H & X). destruct h as [p i|k f| | |]; cbn in X; try contradiction; [|destruct X; contradiction]. destruct X as [-> _]. now exists i.
Qed.

(** * Levels *)
Definition leveled (L : text -> option Z) (s : logs) : Prop := forall v, level s = Some v -> L v = Some (loglevel s).
Lemma step_level L s o : levels_are L o -> leveled L s -> leveled L (fst (step s o)).
Proof.
  intros W G. assert (K : forall s', level s' = level s -> loglevel s' = loglevel s -> leveled L s') by (intros s' A B v E; rewrite B; apply G; congruence).
  destruct o as [w t f|w k|w v|w|w l m|p q]; cbn [step].
  - unfold set_target. destruct (eqb (target s) _); [exact G|]. destruct (eqb (upper t) (tx "INHERITED")); [exact G|].
    destruct (eqb (upper t) (tx "SYSTEMD-JOURNAL")); [destruct (w_journal w); exact G|].
    destruct (eqb (upper t) (tx "SYSLOG")).
    { destruct (eqb (socket s) (Some (tx "auto"))); (destruct (socket _) as [k|]; [destruct (w_socket w k)|]; exact G). }
    destruct (eqb (upper t) (tx "STDOUT") || eqb (upper t) (tx "SYSOUT")); [exact G|]. destruct (eqb (upper t) (tx "STDERR")); [exact G|].
    destruct (w_open w t); [|exact G]. destruct (open_file s t) as [s1 n] eqn:OP. destruct (open_keeps _ _ _ _ OP) as (_ & _ & _ & A & B & _). now apply K.
  - destruct (socket_same w k s) as (_ & _ & _ & _ & _ & A & B). now apply K.
  - cbn in W. unfold set_level. destruct (eqb (level s) _); [exact G|]. destruct (w_levels w (upper v)) eqn:E; [|exact G]. intros x X. cbn in *. injection X as <-. now rewrite <- W.
  - unfold flush. destruct (inb (target s) _); [exact G|]. destruct (rollover w (handlers s) s) as [[h s'] ok] eqn:R. destruct (rollover_kind _ _ _ _ _ _ R) as (_ & _ & _ & A & B). now apply K.
  - unfold log. destruct (l <? loglevel s); [exact G|]. destruct (emit w m (handlers s) s) as [h s'] eqn:R. destruct (emit_kind _ _ _ _ _ _ R) as (_ & _ & A & B). now apply K.
  - unfold rename. destruct (dget p (files s)); [|exact G]. destruct (eqb p q); exact G.
Qed.
Lemma run_level L h lvl f n l : Forall (levels_are L) l -> leveled L (run (init h lvl f n) l).
Proof. intros F. apply (run_inv (leveled L) (levels_are L)); [intros s o; apply step_level|exact F|]. intros v E. discriminate. Qed.
Lemma run_app s a b : run s (a ++ b) = run (run s a) b.
Proof. unfold run. apply fold_left_app. Qed.
