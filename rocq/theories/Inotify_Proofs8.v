(** After a check that looks at everything, the thread catches up *)
From Verif Require Import Base Inotify_Model Inotify_Spec Inotify_Proofs Inotify_Proofs2 Inotify_Proofs3 Inotify_Proofs4 Inotify_Proofs5 Inotify_Proofs6 Inotify_Proofs7.
From Coq Require Import ZifyBool ZifyNat.
Local Open Scope string_scope.
Local Open Scope list_scope.
Local Open Scope Z_scope.

(** Is what is waited for there? *)
Definition there (f : fsys) (b : option bool) (p : path) : bool := match b with Some true => isdir f p | _ => isfile f p end.
Definition looked (f : fsys) (n : filt) (t : list micro) : Prop :=
  forall p r b, dget p (pend n) = Some (r, b) -> In (Found p b) t \/ there f b p = false.
Definition ends (k : kern) : Prop := forall e, In e (queue k) -> exists p, e = EIgnored p.
Definition Quiet (s : state) : Prop := ends (K s) /\ looked (F s) (N s) (todo s).

Lemma ends_rm v k : ends k -> ends (rm_watch v k).
Proof.
  intros H e. cbn [rm_watch queue]. rewrite in_app_iff, in_map_iff. intros [He|(w & <- & _)]; [now apply H | now exists (w_path w)].
Qed.
Lemma queue_add p i b k : queue (fst (add_watch p i b k)) = queue k.
Proof. unfold add_watch. destruct i; [|reflexivity]. destruct (List.find _ _); reflexivity. Qed.
Lemma queue_add_dir d f k n : queue (fst (add_dir_watcher d f (k, n))) = queue k.
Proof.
  cbn [add_dir_watcher]. destruct (dmem d (wdirs n)); [reflexivity|]. pose proof (queue_add d (dget d (dirs f)) true k) as H.
  destruct (add_watch d (dget d (dirs f)) true k). exact H.
Qed.
Lemma queue_add_file p f k n : queue (fst (add_file_watcher p f (k, n))) = queue k.
Proof.
  unfold add_file_watcher. pose proof (queue_add_dir (dirname p) f k n) as H. destruct (add_dir_watcher (dirname p) f (k, n)) as [k1 n1].
  cbn [fst] in H. pose proof (queue_add p (dget p (files f)) false k1) as H1. destruct (add_watch p (dget p (files f)) false k1). cbn [fst] in *. congruence.
Qed.
Lemma ends_del_file p k n : ends k -> ends (fst (del_file_watcher p (k, n))).
Proof. cbn [del_file_watcher]. destruct (dget p (wfiles n)); [apply ends_rm | auto]. Qed.
Lemma ends_del_dir p k n : ends k -> ends (fst (del_dir_watcher p (k, n))).
Proof. cbn [del_dir_watcher]. destruct (dget p (wdirs n)); [apply ends_rm | auto]. Qed.
Lemma looked_add f p b n t : looked f n t -> there f b p = false -> looked f (add_pending p b n) t.
Proof.
  intros H Hn q r x. rewrite add_pending_get. destruct (dmem p (pend n)); [apply H|]. destruct (eqb_spec q p) as [->|]; [|apply H].
  intros [= <- <-]. now right.
Qed.
Lemma looked_fold f (g : path -> bool) l n t : (forall d, g d = true -> isdir f d = false) -> looked f n t ->
  looked f (fold_left (fun m d => if g d then add_pending d (Some true) m else m) l n) t.
Proof.
  intros Hg. revert n. induction l as [|d l IH]; intros n H; [exact H|]. cbn [fold_left]. apply IH. destruct (g d) eqn:E; [|exact H].
  apply looked_add; [exact H | now apply Hg].
Qed.
Lemma looked_more f n m t u : pend m = pend n -> looked f n t -> (forall p b, In (Found p b) t -> In (Found p b) u) -> looked f m u.
Proof. intros E H Hu p r b. rewrite E. intros Hp. destruct (H _ _ _ Hp); auto. Qed.

Lemma Quiet_go_on s : Inv s -> ~ at_rest s -> Quiet s -> Quiet (go_on s).
Proof.
  intros HI Hn [HE HL]. unfold go_on. destruct (todo s) as [|m r] eqn:Et.
  - unfold step. rewrite Et. destruct (queue (K s)) as [|e q] eqn:Eq; [destruct Hn; now split|].
    destruct (HE e) as [p ->]; [rewrite Eq; now left|].
    pose proof (callback_todo (EIgnored p) (F s) (N s)) as Ht.
    destruct (callback (EIgnored p) (F s) (N s)) as [n1 t] eqn:Ec. split.
    + intros e' He. apply HE. rewrite Eq. now right.
    + cbn [F N todo]. assert (H1 : looked (F s) n1 []).
      { unfold callback in Ec. injection Ec as <- _. destruct (dmem p (wdirs (N s))) eqn:Ed; cbn [andb orb negb].
        - destruct (isdir (F s) p) eqn:Ei; cbn [negb]; [|now apply looked_add].
          apply looked_fold; [|exact HL]. intros d Hd. apply andb_prop in Hd as [_ Hd]. now apply negb_true_iff in Hd.
        - destruct (dmem p (wfiles (N s))); [exact HL|]. apply looked_fold; [|exact HL].
          intros d Hd. apply andb_prop in Hd as [_ Hd]. now apply negb_true_iff in Hd. }
      apply (looked_more _ n1 _ []); [reflexivity | exact H1 | intros ? ? []].
  - unfold step. rewrite Et. unfold micro_step. rewrite Et. cbn [tl].
    assert (Hr : (forall p b, m <> Found p b) -> looked (F s) (N s) r).
    { intros Hm p x b Hp. destruct (HL p x b Hp) as [[E|Hin]|Hf]; auto. destruct (Hm _ _ E). }
    destruct m as [p c|p c|d|d|p|p|p b|d|p].
    + pose proof (pend_del_file p (K s) (N s)) as [E _]. pose proof (ends_del_file p (K s) (N s) HE) as HE'.
      destruct (del_file_watcher p (K s, N s)) as [k n]. split; [exact HE'|]. cbn [F N todo].
      apply (looked_more _ (N s) _ r); [exact E | apply Hr; discriminate | intros; now right].
    + pose proof (pend_add_file p (F s) (K s) (N s)) as [E _]. pose proof (queue_add_file p (F s) (K s) (N s)) as Eq.
      destruct (add_file_watcher p (F s) (K s, N s)) as [k n]. split; [unfold ends; cbn [K fst] in *; rewrite Eq; exact HE|]. cbn [F N todo].
      apply (looked_more _ (N s) _ r); [exact E | apply Hr; discriminate | intros; now right].
    + pose proof (pend_del_dir d (K s) (N s)) as [E _]. pose proof (ends_del_dir d (K s) (N s) HE) as HE'.
      destruct (del_dir_watcher d (K s, N s)) as [k n]. split; [exact HE'|]. cbn [F N todo].
      apply (looked_more _ (N s) _ r); [exact E | apply Hr; discriminate | intros; now right].
    + pose proof (pend_add_dir d (F s) (K s) (N s)) as [E _]. pose proof (queue_add_dir d (F s) (K s) (N s)) as Eq.
      destruct (add_dir_watcher d (F s) (K s, N s)) as [k n]. split; [unfold ends; cbn [K fst] in *; rewrite Eq; exact HE|]. cbn [F N todo].
      apply (looked_more _ (N s) _ r); [exact E | apply Hr; discriminate | intros; now right].
    + destruct (isfile (F s) p) eqn:Ei; (split; [exact HE|]); cbn [F N todo].
      * apply (looked_more _ (N s) _ r); [reflexivity | apply Hr; discriminate | intros; now right].
      * apply looked_add; [apply Hr; discriminate | exact Ei].
    + split; [exact HE|]. cbn [F N todo]. pose proof (pend_process p (F s) (N s)) as [E _].
      apply (looked_more _ (N s) _ r); [exact E | apply Hr; discriminate | auto].
    + split; [exact HE|]. cbn [F N todo]. intros q x c. cbn [del_pending set_pend pend]. rewrite dget_ddel by apply (ni_pwf _ _ (i_n s HI)).
      destruct (eqb_spec q p) as [|Hq]; [discriminate|]. intros Hp. destruct (HL _ _ _ Hp) as [[E|Hin]|Hf]; [congruence | left; apply in_app_iff; now right | now right].
    + split; [exact HE|]. cbn [F N todo]. apply (looked_more _ (N s) _ r); [reflexivity | apply Hr; discriminate | intros; apply in_app_iff; now right].
    + destruct (isfile (F s) p) eqn:Ei; (split; [exact HE|]); cbn [F N todo].
      * apply (looked_more _ (N s) _ r); [reflexivity | apply Hr; discriminate | intros; now right].
      * apply looked_add; [apply Hr; discriminate | exact Ei].
Qed.

Lemma option_eqb_dec (a b : option bool) : {a = b} + {a <> b}.
Proof. decide equality. apply Bool.bool_dec. Qed.
(** ** A check *)
Lemma check_spec now later f n : dwf (pend n) -> chk_time n + min_time n <= now ->
  forall p r b, dget p (pend n) = Some (r, b) ->
  let out := check_pending now later f n in
  dget p (pend (fst out)) = Some (fst (look now (chk_time n) f r b p), b)
  /\ (In (Found p b) (snd out) <-> snd (look now (chk_time n) f r b p) = true).
Proof.
  intros Hwf Ht p r b Hp. cbv zeta. unfold check_pending. destruct (pend n) as [|x0 l0] eqn:El; [discriminate|]. rewrite <- El in *. clear El x0 l0.
  destruct (Z.ltb_spec now (chk_time n + min_time n)); [lia|]. cbn [fst snd set_times set_pend pend]. split.
  - apply In_dget.
    + unfold dwf, dkeys in *. now rewrite map_map.
    + apply in_map_iff. exists (p, (r, b)). split; [reflexivity | now apply dget_In].
  - rewrite in_map_iff. split.
    + intros ([q [r' b']] & E & Hin). apply filter_In in Hin as [Hin Hl]. cbn [fst snd] in *. injection E as <- <-.
      apply In_dget in Hin; [|exact Hwf]. rewrite Hp in Hin. injection Hin as <-. exact Hl.
    + intros Hl. exists (p, (r, b)). split; [reflexivity|]. apply filter_In. split; [now apply dget_In | exact Hl].
Qed.
Lemma check_none now later f n p : dwf (pend n) -> dget p (pend n) = None -> dget p (pend (fst (check_pending now later f n))) = None
  /\ forall b, ~ In (Found p b) (snd (check_pending now later f n)).
Proof.
  intros Hwf Hp. unfold check_pending. destruct (pend n) as [|x0 l0] eqn:El; [cbn [fst snd]; rewrite El; split; [reflexivity | intros b []]|]. rewrite <- El in *. clear El x0 l0.
  destruct (now <? _); [split; [exact Hp | intros b []]|]. cbn [fst snd set_times set_pend pend]. apply dget_None in Hp. split.
  - apply dget_None. unfold dkeys in *. now rewrite map_map.
  - intros b Hin. apply in_map_iff in Hin as ([q [r' b']] & E & Hin). apply filter_In in Hin as [Hin _]. cbn [fst snd] in *. injection E as -> _.
    apply Hp. apply in_map_iff. now exists (p, (r', b')).
Qed.

Lemma Quiet_check s t t' : Inv s -> at_rest s -> Times (fun r => r <= t - chk_time (N s)) (t - chk_time (N s)) (N s) -> Quiet (step s (Check t t')).
Proof.
  intros HI [Hq Ht] (T1 & T2 & T3). unfold step. rewrite Ht, (ni_idle _ _ (i_n s HI)).
  pose proof (check_spec t t' (F s) (N s) T3) as H. pose proof (fun p => check_none t t' (F s) (N s) p T3) as H0.
  destruct (check_pending t t' (F s) (N s)) as [n1 td] eqn:E. cbn [fst snd] in *. split.
  - intros e. cbn [K]. rewrite Hq. intros [].
  - cbn [F N todo]. intros p r b Hp. destruct (dget p (pend (N s))) as [[r0 b0]|] eqn:Ep.
    + destruct (H ltac:(lia) _ _ _ Ep) as [H1 H2]. rewrite H1 in Hp. injection Hp as <- <-. rewrite H2. unfold look. pose proof (T1 _ _ _ Ep) as Hm.
      cbv beta in Hm. destruct (Z.ltb_spec (t - chk_time (N s)) r0); [lia|]. unfold there. destruct (match b0 with Some true => _ | _ => _ end); auto.
    + destruct (H0 p Ep) as [H1 _]. congruence.
Qed.

(** ** Nothing is missed *)
Lemma followed s p : Inv s -> at_rest s -> In p (logs (N s)) -> dmem p (pend (N s)) = false -> dmem (dirname p) (pend (N s)) = false -> up_to_date s p.
Proof.
  intros HI [Hq Ht] Hp H1 H2. unfold up_to_date, read_of, lines_of.
  destruct (i_f s HI p Hp) as [H|[H|[H|[(m & H & _)|[H|(w & _ & _ & H & Hk)]]]]].
  - congruence.
  - rewrite Hq in H. destruct H.
  - rewrite Hq in H. destruct H.
  - rewrite Ht in H. destruct H.
  - now rewrite H.
  - rewrite H. destruct Hk as [Hk|[Hk|[Hk|[Hk|[Hk|Hk]]]]].
    + now rewrite Hk.
    + rewrite Hq in Hk. destruct Hk.
    + rewrite Hq in Hk. destruct Hk.
    + congruence.
    + rewrite Ht in Hk. destruct Hk.
    + rewrite Ht in Hk. destruct Hk.
Qed.

Theorem catches_up s t t' : Inv s -> 200 <= t - chk_time (N s) -> Times (fun r => r <= t - chk_time (N s)) (t - chk_time (N s)) (N s) ->
  exists n m, let s1 := goes_on n s in let s2 := goes_on m (step s1 (Check t t')) in
  at_rest s1 /\ at_rest s2 /\ Inv s2 /\ F s2 = F s /\ logs (N s2) = logs (N s) /\ forall p, In p (logs (N s)) -> up_to_date s2 p.
Proof.
  intros HI H200 HT. set (M := t - chk_time (N s)) in *.
  destruct (comes_to_rest (fun u => Times (fun r => r <= M) M (N u))) with (s := s) as (n & A1 & A2 & A3 & (A4 & A5 & A6 & A7)); [|exact HI|exact HT|].
  { intros u _ _ Hu. apply Times_go_on; [exact H200 | lia | exact Hu]. }
  unfold M in A3. rewrite <- A6 in A3. pose proof (Quiet_check _ t t' A2 A1 A3) as HQ.
  assert (HI2 : Inv (step (goes_on n s) (Check t t'))) by (apply Inv_step; [exact A2 | exact I]).
  destruct (comes_to_rest Quiet Quiet_go_on _ HI2 HQ) as (m & B1 & B2 & B3 & (B4 & B5 & _)).
  exists n, m. cbv zeta. split; [exact A1|]. split; [exact B1|]. split; [exact B2|].
  assert (EF : F (step (goes_on n s) (Check t t')) = F (goes_on n s)).
  { unfold step. destruct (todo _); [|reflexivity]. destruct (idle _); [reflexivity|]. destruct (check_pending _ _ _ _). reflexivity. }
  assert (EL : logs (N (step (goes_on n s) (Check t t'))) = logs (N (goes_on n s))).
  { unfold step. destruct (todo _); [|reflexivity]. destruct (idle _); [reflexivity|]. unfold check_pending.
    destruct (pend _); [reflexivity|]. destruct (_ <? _); reflexivity. }
  split; [congruence|]. split; [congruence|]. intros p Hp.
  set (u := goes_on m _) in *. assert (Hp' : In p (logs (N u))) by congruence. destruct B3 as [_ HL]. destruct B1 as [Bq Bt].
  assert (NP : forall q r b, dget q (pend (N u)) = Some (r, b) -> there (F u) b q = false).
  { intros q r b Hq. destruct (HL q r b Hq) as [H|H]; [rewrite Bt in H; destruct H | exact H]. }
  unfold up_to_date, read_of, lines_of.
  destruct (dmem p (pend (N u))) eqn:E1.
  - unfold dmem in E1. destruct (dget p (pend (N u))) as [[r b]|] eqn:Ep; [|discriminate]. pose proof (NP _ _ _ Ep) as H. destruct b as [[|]|].
    + destruct (ni_pd _ _ (i_n u B2) p r Ep) as [Hd|(x & Hx)]; [|rewrite Bt in Hx; discriminate]. destruct (ni_dl _ _ (i_n u B2) p Hd Hp').
    + cbn [there] in H. unfold isfile, dmem in H. destruct (dget p (files (F u))); [discriminate | reflexivity].
    + cbn [there] in H. unfold isfile, dmem in H. destruct (dget p (files (F u))); [discriminate | reflexivity].
  - destruct (dmem (dirname p) (pend (N u))) eqn:E2; [|apply (followed u p); auto; now split].
    destruct (dget p (files (F u))) as [i|] eqn:Ef; [|reflexivity]. exfalso.
    destruct (fs_file _ (i_fs u B2) p i Ef) as (_ & Hd & _).
    unfold dmem in E2. destruct (dget (dirname p) (pend (N u))) as [[r b]|] eqn:Ep; [|discriminate]. pose proof (NP _ _ _ Ep) as H.
    destruct (ni_ld _ _ (i_n u B2) p Hp') as [Hw|(x & Hx)]; [|rewrite Bt in Hx; discriminate]. pose proof (ni_dl _ _ (i_n u B2) _ Hw) as Hl.
    destruct b as [[|]|].
    + cbn [there] in H. unfold isdir in H. congruence.
    + apply Hl. apply (ni_pf _ _ (i_n u B2) _ _ _ Ep). discriminate.
    + apply Hl. apply (ni_pf _ _ (i_n u B2) _ _ _ Ep). discriminate.
Qed.

(** ** A path that is not looked at any more *)
Lemma starved p b r f n now later : dwf (pend n) -> dget p (pend n) = Some (r, b) -> 60000 < r -> now - chk_time n < r ->
  min_time n <= 60000 ->
  let out := check_pending now later f n in
  dget p (pend (fst out)) = Some (r, b) /\ (forall c, ~ In (Found p c) (snd out)) /\ min_time (fst out) <= 60000
  /\ (chk_time (fst out) = chk_time n /\ now < chk_time n + min_time n \/ chk_time (fst out) = later).
Proof.
  intros Hwf Hp Hr Hn Hm. cbv zeta. destruct (Z.lt_ge_cases now (chk_time n + min_time n)) as [L|L].
  - unfold check_pending. destruct (pend n) as [|x0 l0] eqn:El; [discriminate|]. rewrite <- El in *. clear El x0 l0.
    destruct (Z.ltb_spec now (chk_time n + min_time n)); [|lia]. cbn [fst snd]. repeat split; auto.
  - destruct (check_spec now later f n Hwf L p r b Hp) as [H1 H2]. assert (El : look now (chk_time n) f r b p = (r, false)).
    { unfold look. destruct (Z.ltb_spec (now - chk_time n) r); [reflexivity | lia]. }
    rewrite El in H1, H2. cbn [fst snd] in H1, H2. split; [exact H1|]. split.
    + intros c Hin. destruct (option_eqb_dec c b) as [->|Nc]; [apply H2 in Hin; discriminate|].
      unfold check_pending in Hin. destruct (pend n) as [|x0 l0] eqn:E0; [discriminate|]. rewrite <- E0 in *. clear E0 x0 l0.
      destruct (now <? _); [destruct Hin|]. cbn [snd] in Hin. apply in_map_iff in Hin as ([q [r' b']] & E & Hin). apply filter_In in Hin as [Hin _].
      cbn [fst snd] in *. injection E as -> ->. apply In_dget in Hin; [|exact Hwf]. rewrite Hp in Hin. congruence.
    + unfold check_pending. destruct (pend n) as [|x0 l0] eqn:E0; [discriminate|]. rewrite <- E0 in *. clear E0 x0 l0.
      destruct (Z.ltb_spec now (chk_time n + min_time n)); [lia|]. cbn [fst set_times set_pend min_time chk_time]. split; [apply fold_min_le | now right].
Qed.
