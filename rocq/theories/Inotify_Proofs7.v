(** The thread comes to rest, and by then has caught up *)
From Verif Require Import Base Inotify_Model Inotify_Spec Inotify_Proofs Inotify_Proofs2 Inotify_Proofs3 Inotify_Proofs4 Inotify_Proofs5 Inotify_Proofs6.
From Coq Require Import ZifyBool ZifyNat.
Local Open Scope string_scope.
Local Open Scope list_scope.
Local Open Scope nat_scope.

(** ** It comes to rest *)
Definition wt_event (e : event) : nat := match e with ECreate _ => 11 | _ => 3 end.
Definition wt_micro (l : nat) (m : micro) : nat :=
  match m with
  | ReadFile _ => 1 | CheckFile _ => 2 | AddFile _ _ => 9 | RefreshFile _ _ => 10 | Scan _ => 11
  | ScanDir _ => 11 * l + 1 | AddDir _ => 11 * l + 5 | RefreshDir _ => 11 * l + 6 | Found _ _ => 11 * l + 12
  end.
Fixpoint sum (l : list nat) : nat := match l with [] => 0 | x :: r => x + sum r end.
Definition measure (s : state) : nat :=
  sum (map (wt_micro (length (logs (N s)))) (todo s)) + sum (map wt_event (queue (K s))) + 3 * length (watches (K s)).
Lemma sum_app a b : sum (a ++ b) = sum a + sum b.
Proof. induction a as [|x a IH]; cbn [app sum]; [reflexivity | rewrite IH; lia]. Qed.

Definition wt_kern (k : kern) : nat := sum (map wt_event (queue k)) + 3 * length (watches k).
Lemma wt_rm v k : wt_kern (rm_watch v k) = wt_kern k.
Proof.
  unfold wt_kern. cbn [rm_watch queue watches]. rewrite map_app, sum_app, map_map. cbn [wt_event].
  induction (watches k) as [|w l IH]; [cbn; lia|]. cbn [filter map sum length]. destruct (w_wd w =? v)%Z; cbn [negb map sum length]; lia.
Qed.
Lemma wt_add p i b k : wt_kern (fst (add_watch p i b k)) <= wt_kern k + 3.
Proof.
  unfold wt_kern, add_watch. destruct i as [i|]; cbn [fst]; [|lia]. destruct (List.find _ _); cbn [fst queue watches].
  - rewrite map_length. lia.
  - rewrite app_length. cbn [length]. lia.
Qed.
Lemma wt_add_dir d f k n : wt_kern (fst (add_dir_watcher d f (k, n))) <= wt_kern k + 3.
Proof.
  cbn [add_dir_watcher]. destruct (dmem d (wdirs n)); cbn [fst]; [lia|]. pose proof (wt_add d (dget d (dirs f)) true k) as H.
  destruct (add_watch d (dget d (dirs f)) true k). exact H.
Qed.
Lemma wt_add_file p f k n : wt_kern (fst (add_file_watcher p f (k, n))) <= wt_kern k + 6.
Proof.
  unfold add_file_watcher. pose proof (wt_add_dir (dirname p) f k n) as H. destruct (add_dir_watcher (dirname p) f (k, n)) as [k1 n1].
  cbn [fst] in H. pose proof (wt_add p (dget p (files f)) false k1) as H1. destruct (add_watch p (dget p (files f)) false k1). cbn [fst] in *. lia.
Qed.
Lemma wt_del_file p k n : wt_kern (fst (del_file_watcher p (k, n))) = wt_kern k.
Proof. cbn [del_file_watcher]. destruct (dget p (wfiles n)); [apply wt_rm | reflexivity]. Qed.
Lemma wt_del_dir p k n : wt_kern (fst (del_dir_watcher p (k, n))) = wt_kern k.
Proof. cbn [del_dir_watcher]. destruct (dget p (wdirs n)); [apply wt_rm | reflexivity]. Qed.

(** What does not change while the thread goes on by itself *)
Definition same_rest (s u : state) : Prop := F u = F s /\ logs (N u) = logs (N s) /\ chk_time (N u) = chk_time (N s) /\ idle (N u) = idle (N s).
Lemma same_refl s : same_rest s s.
Proof. repeat split. Qed.
Lemma same_trans a b c : same_rest a b -> same_rest b c -> same_rest a c.
Proof. unfold same_rest. intros (x1 & x2 & x3 & x4) (y1 & y2 & y3 & y4). repeat split; congruence. Qed.
Definition keeps (n m : filt) : Prop := logs m = logs n /\ chk_time m = chk_time n /\ idle m = idle n.
Lemma keeps_add_dir d f k n : keeps n (snd (add_dir_watcher d f (k, n))).
Proof.
  cbn [add_dir_watcher]. destruct (dmem d (wdirs n)); [repeat split|]. destruct (add_watch _ _ _ _). repeat split.
Qed.
Lemma keeps_add_file d f k n : keeps n (snd (add_file_watcher d f (k, n))).
Proof.
  unfold add_file_watcher. pose proof (keeps_add_dir (dirname d) f k n) as H. destruct (add_dir_watcher (dirname d) f (k, n)) as [k1 n1].
  destruct (add_watch _ _ _ _). exact H.
Qed.
Lemma keeps_del_file p k n : keeps n (snd (del_file_watcher p (k, n))).
Proof. cbn [del_file_watcher]. destruct (dget p (wfiles n)); repeat split. Qed.
Lemma keeps_del_dir p k n : keeps n (snd (del_dir_watcher p (k, n))).
Proof. cbn [del_dir_watcher]. destruct (dget p (wdirs n)); repeat split. Qed.
Lemma keeps_pending p b n : keeps n (add_pending p b n).
Proof. destruct (add_pending_rest p b n) as (a1 & a2 & a3 & a4 & a5 & a6). repeat split; assumption. Qed.

Lemma filter_length_le' {A} (g : A -> bool) l : length (filter g l) <= length l.
Proof. induction l as [|x l IH]; cbn [filter length]; [lia|]. destruct (g x); cbn [length]; lia. Qed.
Lemma sum_const {A} (g : A -> nat) c l : (forall x, In x l -> g x = c) -> sum (map g l) = c * length l.
Proof.
  induction l as [|x l IH]; intros H; cbn [map sum length]; [lia|]. rewrite IH, (H x (or_introl eq_refl)); [lia|].
  intros y Hy. apply H. now right.
Qed.

Lemma go_on_less s : Inv s -> ~ at_rest s -> measure (go_on s) < measure s /\ same_rest s (go_on s).
Proof.
  intros HI Hn. unfold go_on. unfold measure. fold (wt_kern (K s)).
  destruct (todo s) as [|m r] eqn:Et.
  - unfold step. rewrite Et. destruct (queue (K s)) as [|e q] eqn:Eq; [destruct Hn; now split|].
    destruct (callback e (F s) (N s)) as [n1 t] eqn:Ec. pose proof (callback_more e (F s) (N s)) as Hm. rewrite Ec in Hm. cbn [fst] in Hm.
    pose proof (callback_todo e (F s) (N s)) as Hs. rewrite Ec in Hs. cbn [snd] in Hs. split.
    + cbn [todo K N queue watches map sum]. assert (Hw : sum (map (wt_micro (length (logs n1))) t) < wt_event e); [|lia].
      rewrite Hs. destruct (negb _ && _); destruct e; cbn; lia.
    + repeat split; cbn [N]; [apply (m_logs _ _ Hm) | apply (m_chk _ _ Hm) | apply (m_idle _ _ Hm)].
  - unfold step. rewrite Et. unfold micro_step. rewrite Et. cbn [tl map sum].
    set (L := length (logs (N s))). destruct m as [p c|p c|d|d|p|p|p b|d|p].
    + pose proof (wt_del_file p (K s) (N s)) as H1. pose proof (keeps_del_file p (K s) (N s)) as (H2 & H3 & H4).
      destruct (del_file_watcher p (K s, N s)) as [k n]. cbn [fst snd todo K N map sum] in *. fold L in H2. rewrite H2. fold L.
      unfold wt_kern in *. split; [cbn [wt_micro]; lia | repeat split; assumption].
    + pose proof (wt_add_file p (F s) (K s) (N s)) as H1. pose proof (keeps_add_file p (F s) (K s) (N s)) as (H2 & H3 & H4).
      destruct (add_file_watcher p (F s) (K s, N s)) as [k n]. cbn [fst snd todo K N map sum] in *. rewrite H2. fold L.
      unfold wt_kern in *. split; [destruct c; cbn [wt_micro]; lia | repeat split; assumption].
    + pose proof (wt_del_dir d (K s) (N s)) as H1. pose proof (keeps_del_dir d (K s) (N s)) as (H2 & H3 & H4).
      destruct (del_dir_watcher d (K s, N s)) as [k n]. cbn [fst snd todo K N map sum] in *. rewrite H2. fold L.
      unfold wt_kern in *. split; [cbn [wt_micro]; lia | repeat split; assumption].
    + pose proof (wt_add_dir d (F s) (K s) (N s)) as H1. pose proof (keeps_add_dir d (F s) (K s) (N s)) as (H2 & H3 & H4).
      destruct (add_dir_watcher d (F s) (K s, N s)) as [k n]. cbn [fst snd todo K N map sum] in *. rewrite H2. fold L.
      unfold wt_kern in *. split; [cbn [wt_micro]; lia | repeat split; assumption].
    + destruct (isfile (F s) p); cbn [todo K N map sum].
      * fold L. split; [cbn [wt_micro]; lia | repeat split].
      * pose proof (keeps_pending p (Some false) (N s)) as (H2 & H3 & H4). rewrite H2. fold L.
        split; [cbn [wt_micro]; lia | repeat split; assumption].
    + assert (H : keeps (N s) (process_file p (F s) (N s))).
      { unfold process_file. destruct (idle (N s)) eqn:Ei; [repeat split; exact Ei|]. destruct (inb p (logs (N s))); cbn [negb]; [|repeat split; exact Ei].
        destruct (dget p (files (F s))); repeat split; cbn [idle]; try exact Ei; symmetry; exact Ei. }
      destruct H as (H2 & H3 & H4). cbn [todo K N map sum]. rewrite H2. fold L. split; [cbn [wt_micro]; lia | repeat split; assumption].
    + cbn [todo K N map sum]. change (logs (del_pending p (N s))) with (logs (N s)). fold L.
      split; [destruct b as [[|]|]; cbn [app map sum wt_micro]; lia | repeat split].
    + cbn [todo K N map sum]. fold L. rewrite map_app, sum_app, map_map. cbn [wt_micro]. rewrite (sum_const _ 11) by auto.
      assert (Hl : length (filter (under d) (dkeys (wfiles (N s)))) <= L).
      { apply (Nat.le_trans _ (length (dkeys (wfiles (N s))))); [apply filter_length_le'|]. apply NoDup_incl_length.
        - apply (ni_wf _ _ (i_n s HI)).
        - intros q Hq. apply (ni_wl _ _ (i_n s HI)). now apply dmem_In. }
      split; [lia | repeat split].
    + destruct (isfile (F s) p); cbn [todo K N map sum].
      * fold L. split; [cbn [wt_micro]; lia | repeat split].
      * pose proof (keeps_pending p (Some false) (N s)) as (H2 & H3 & H4). rewrite H2. fold L.
        split; [cbn [wt_micro]; lia | repeat split; assumption].
Qed.
Lemma Inv_go_on s : Inv s -> Inv (go_on s).
Proof. intros H. unfold go_on. destruct (todo s); apply Inv_step; try exact H; exact I. Qed.
Lemma rest_dec s : at_rest s \/ ~ at_rest s.
Proof.
  unfold at_rest. destruct (queue (K s)), (todo s); [left; auto | right | right | right]; intros [H1 H2]; discriminate.
Qed.
Lemma goes_on_S n s : goes_on (S n) s = goes_on n (go_on s).
Proof. reflexivity. Qed.
(** If nothing else happens, the thread comes to rest; and whatever it keeps on the way holds then *)
Lemma comes_to_rest (P : state -> Prop) : (forall s, Inv s -> ~ at_rest s -> P s -> P (go_on s)) ->
  forall s, Inv s -> P s -> exists n, at_rest (goes_on n s) /\ Inv (goes_on n s) /\ P (goes_on n s) /\ same_rest s (goes_on n s).
Proof.
  intros HP s. remember (measure s) as k eqn:Ek. revert s Ek. induction k as [k IH] using lt_wf_ind. intros s -> HI Hp.
  destruct (rest_dec s) as [Hr|Hr]; [exists 0; split; [exact Hr|]; split; [exact HI|]; split; [exact Hp|apply same_refl]|].
  destruct (go_on_less s HI Hr) as [H1 H2]. destruct (IH _ H1 (go_on s) eq_refl (Inv_go_on s HI) (HP s HI Hr Hp)) as (n & A1 & A2 & A3 & A4).
  exists (S n). rewrite goes_on_S. split; [exact A1|]. split; [exact A2|]. split; [exact A3|]. now apply (same_trans _ (go_on s)).
Qed.

Local Open Scope Z_scope.
(** ** The times to wait *)
Definition wait_ok (r : Z) : Prop := exists k, 0 <= k <= 9 /\ r = 200 * 2 ^ k.
Lemma wait_start : wait_ok 200.
Proof. exists 0. split; [lia | reflexivity]. Qed.
Lemma wait_next r : wait_ok r -> wait_ok (if r <? 60000 then 2 * r else r).
Proof.
  intros (k & Hk & ->). destruct (Z.ltb_spec (200 * 2 ^ k) 60000) as [L|L]; [|exists k; auto].
  exists (k + 1). split; [|rewrite Z.pow_add_r by lia; lia]. split; [lia|].
  destruct (Z.le_gt_cases k 8) as [H|H]; [lia|]. exfalso. assert (E : k = 9) by lia. subst k. vm_compute in L. discriminate.
Qed.
Lemma wait_max r : wait_ok r -> 0 < r <= 102400.
Proof.
  intros (k & Hk & ->). assert (H : 0 < 2 ^ k) by (apply Z.pow_pos_nonneg; lia).
  assert (H1 : 2 ^ k <= 2 ^ 9) by (apply Z.pow_le_mono_r; lia). change (2 ^ 9) with 512 in H1. lia.
Qed.
Section WITH.
Context (ok : Z -> Prop) (M : Z) (ok_start : ok 200) (M_pos : 0 <= M).
Definition Times (n : filt) : Prop := (forall p r b, dget p (pend n) = Some (r, b) -> ok r) /\ min_time n <= M /\ dwf (pend n).
Lemma Times_add p b n : Times n -> Times (add_pending p b n).
Proof.
  intros (H1 & H2 & H3). split; [|split].
  - intros q r x. rewrite add_pending_get. destruct (dmem p (pend n)); [apply H1|]. destruct (eqb q p); [|apply H1].
    intros [= <- <-]. exact ok_start.
  - unfold add_pending. destruct (dmem p (pend n)); [exact H2 | cbn; lia].
  - now apply add_pending_wf.
Qed.
Lemma Times_keep n m : pend m = pend n -> min_time m = min_time n -> Times n -> Times m.
Proof. unfold Times. intros -> ->. auto. Qed.
Lemma Times_del p n : Times n -> Times (del_pending p n).
Proof.
  intros (H1 & H2 & H3). split; [|split; [exact H2 | now apply dwf_ddel]]. cbn [del_pending set_pend pend]. intros q r b.
  rewrite dget_ddel by exact H3. destruct (eqb q p); [discriminate | apply H1].
Qed.
Lemma Times_fold (g : path -> bool) l n : Times n -> Times (fold_left (fun m d => if g d then add_pending d (Some true) m else m) l n).
Proof.
  revert n. induction l as [|d l IH]; intros n H; [exact H|]. cbn [fold_left]. apply IH. destruct (g d); [now apply Times_add | exact H].
Qed.
Lemma Times_callback e f n : Times n -> Times (fst (callback e f n)).
Proof.
  intros H. unfold callback. destruct e as [p|p|p|p|p]; cbn [fst]; try exact H.
  - destruct (negb (dmem p (wdirs n)) && dmem p (wfiles n)); exact H.
  - destruct (dmem p (wdirs n) && (false || negb (isdir f p))); [now apply Times_add|].
    destruct (negb (dmem p (wdirs n)) && dmem p (wfiles n)); [exact H | now apply Times_fold].
  - destruct (dmem p (wdirs n) && (true || negb (isdir f p))); [now apply Times_add|].
    destruct (negb (dmem p (wdirs n)) && dmem p (wfiles n)); [exact H | now apply Times_fold].
Qed.
Lemma fold_min_le l a : fold_left Z.min l a <= a.
Proof. revert a. induction l as [|x l IH]; intros a; cbn [fold_left]; [lia|]. specialize (IH (Z.min a x)). lia. Qed.
Lemma Times_check now later f n : (forall r, ok r -> ok (if r <? 60000 then 2 * r else r)) -> 60000 <= M -> Times n -> Times (fst (check_pending now later f n)).
Proof.
  intros ok_next HM H. unfold check_pending. destruct (pend n) as [|x0 l0] eqn:El; [exact H|]. rewrite <- El. clear El x0 l0.
  destruct (now <? _); [exact H|]. cbn [fst]. destruct H as (H1 & H2 & H3). unfold Times. cbn [set_times set_pend pend min_time]. split; [|split].
  - intros p r b E. apply dget_In in E. apply in_map_iff in E as ([q [r' b']] & E & Hin). cbn [fst snd] in E. injection E as <- <- <-.
    apply In_dget in Hin; [|exact H3]. specialize (H1 _ _ _ Hin). unfold look. destruct (_ <? _); [exact H1|].
    destruct (match b' with Some true => _ | _ => _ end); [exact H1 | now apply ok_next].
  - apply (Z.le_trans _ 60000); [apply fold_min_le | exact HM].
  - unfold dwf, dkeys in *. rewrite map_map. exact H3.
Qed.
Lemma pend_add_dir d f k n : pend (snd (add_dir_watcher d f (k, n))) = pend n /\ min_time (snd (add_dir_watcher d f (k, n))) = min_time n.
Proof. cbn [add_dir_watcher]. destruct (dmem d (wdirs n)); [auto|]. destruct (add_watch _ _ _ _). auto. Qed.
Lemma pend_add_file d f k n : pend (snd (add_file_watcher d f (k, n))) = pend n /\ min_time (snd (add_file_watcher d f (k, n))) = min_time n.
Proof.
  unfold add_file_watcher. pose proof (pend_add_dir (dirname d) f k n) as H. destruct (add_dir_watcher (dirname d) f (k, n)) as [k1 n1].
  destruct (add_watch _ _ _ _). exact H.
Qed.
Lemma pend_del_file p k n : pend (snd (del_file_watcher p (k, n))) = pend n /\ min_time (snd (del_file_watcher p (k, n))) = min_time n.
Proof. cbn [del_file_watcher]. destruct (dget p (wfiles n)); auto. Qed.
Lemma pend_del_dir p k n : pend (snd (del_dir_watcher p (k, n))) = pend n /\ min_time (snd (del_dir_watcher p (k, n))) = min_time n.
Proof. cbn [del_dir_watcher]. destruct (dget p (wdirs n)); auto. Qed.
Lemma pend_process p f n : pend (process_file p f n) = pend n /\ min_time (process_file p f n) = min_time n.
Proof. unfold process_file. destruct (idle n), (inb p (logs n)), (dget p (files f)); auto. Qed.
Ltac times_keep H := let E1 := fresh in let E2 := fresh in destruct H as [E1 E2]; cbn [fst snd] in E1, E2; now apply (Times_keep _ _ E1 E2).
Lemma Times_micro m s : Times (N s) -> Times (N (micro_step m s)).
Proof.
  intros H. unfold micro_step. destruct m as [p c|p c|d|d|p|p|p b|d|p].
  - pose proof (pend_del_file p (K s) (N s)) as H1. destruct (del_file_watcher p (K s, N s)). times_keep H1.
  - pose proof (pend_add_file p (F s) (K s) (N s)) as H1. destruct (add_file_watcher p (F s) (K s, N s)). times_keep H1.
  - pose proof (pend_del_dir d (K s) (N s)) as H1. destruct (del_dir_watcher d (K s, N s)). times_keep H1.
  - pose proof (pend_add_dir d (F s) (K s) (N s)) as H1. destruct (add_dir_watcher d (F s) (K s, N s)). times_keep H1.
  - destruct (isfile (F s) p); [exact H | now apply Times_add].
  - pose proof (pend_process p (F s) (N s)) as H1. times_keep H1.
  - now apply Times_del.
  - exact H.
  - destruct (isfile (F s) p); [exact H | now apply Times_add].
Qed.
Lemma Times_go_on s : Times (N s) -> Times (N (go_on s)).
Proof.
  intros H. unfold go_on. destruct (todo s) eqn:Et; unfold step; rewrite Et.
  - destruct (queue (K s)) as [|e q]; [exact H|]. pose proof (Times_callback e (F s) (N s) H) as H1. destruct (callback e (F s) (N s)). exact H1.
  - now apply Times_micro.
Qed.
Lemma Times_step s o : (forall r, ok r -> ok (if r <? 60000 then 2 * r else r)) -> 60000 <= M -> Times (N s) -> Times (N (step s o)).
Proof.
  intros ok_next HM H. unfold step. destruct o as [p|i|p|p c|q p|p|p|d|d|d|e| | |now later|p|p|b].
  - destruct (dget p (files (F s))); exact H.
  - exact H.
  - destruct (room (F s) p && negb (isfile (F s) p)); exact H.
  - destruct (room (F s) p); exact H.
  - destruct (dget q (files (F s))); [|exact H]. destruct (room (F s) p && negb (eqb q p)); exact H.
  - destruct (isfile (F s) p); exact H.
  - destruct (isfile (F s) p); exact H.
  - destruct (room (F s) d && negb (isfile (F s) d)); exact H.
  - destruct (dget d (dirs (F s))); [|exact H]. destruct (_ || _); exact H.
  - destruct (dget d (dirs (F s))); [|exact H]. destruct (eqb d []); exact H.
  - exact H.
  - destruct (todo s); [|exact H]. destruct (queue (K s)) as [|e q]; [exact H|]. pose proof (Times_callback e (F s) (N s) H) as H1.
    destruct (callback e (F s) (N s)). exact H1.
  - destruct (todo s); [exact H | now apply Times_micro].
  - destruct (todo s); [|exact H]. destruct (idle (N s)); [exact H|]. pose proof (Times_check now later (F s) (N s) ok_next HM H) as H1.
    destruct (check_pending now later (F s) (N s)). exact H1.
  - destruct (todo s); [|exact H]. unfold add_log. destruct (inb p (logs (N s)) || negb (isfile (F s) p)); [exact H|].
    pose proof (pend_add_file p (F s) (K s) (set_logs (logs (N s) ++ [p]) (N s))) as [E1 E2].
    destruct (add_file_watcher p (F s) (K s, set_logs (logs (N s) ++ [p]) (N s))) as [k n]. cbn [fst snd N] in *. apply Times_add.
    destruct H as (H1 & H2 & H3). unfold Times. cbn [set_times pend min_time]. rewrite E1. split; [exact H1|]. split; [lia | exact H3].
  - destruct (todo s); [|exact H]. unfold del_log. destruct (inb p (logs (N s))); [|exact H].
    set (n0 := del_pending p _). assert (H0 : Times n0) by now apply Times_del.
    pose proof (pend_del_file p (K s) n0) as [E1 E2]. destruct (del_file_watcher p (K s, n0)) as [k n]. cbn [snd] in E1, E2.
    assert (Hn : Times n) by now apply (Times_keep n0). destruct (existsb _ _); [exact Hn|].
    pose proof (pend_del_dir (dirname p) k (del_pending (dirname p) n)) as [E3 E4].
    destruct (del_dir_watcher (dirname p) (k, del_pending (dirname p) n)) as [k1 n1]. cbn [snd] in E3, E4.
    apply (Times_keep (del_pending (dirname p) n)); [exact E3 | exact E4 | now apply Times_del].
  - exact H.
Qed.
End WITH.
Lemma Times_run ops s : Times wait_ok 60000 (N s) -> Times wait_ok 60000 (N (run s ops)).
Proof.
  revert s. induction ops as [|o r IH]; intros s H; [exact H|]. apply IH. apply Times_step; try assumption; try lia; [apply wait_start | apply wait_next].
Qed.
Lemma Times_init : Times wait_ok 60000 (N init).
Proof. split; [intros p r b E; discriminate | split; [cbn; lia | constructor]]. Qed.
