(** No log is ever lost sight of: the filter's thread *)
From Verif Require Import Base Inotify_Model Inotify_Spec Inotify_Proofs Inotify_Proofs2.
From Coq Require Import ZifyBool ZifyNat.
Local Open Scope string_scope.
Local Open Scope list_scope.
Local Open Scope Z_scope.

(** ** Pending paths *)
Lemma add_pending_get p b n q :
  dget q (pend (add_pending p b n)) = if dmem p (pend n) then dget q (pend n) else if eqb q p then Some (200, b) else dget q (pend n).
Proof. unfold add_pending. destruct (dmem p (pend n)); [reflexivity|]. cbn [set_times set_pend pend]. apply dget_dset. Qed.
Lemma add_pending_mem p b n q : dmem q (pend n) = true -> dmem q (pend (add_pending p b n)) = true.
Proof.
  intros H. apply dmem_some. rewrite add_pending_get. apply dmem_some in H as [v H]. destruct (dmem p (pend n)); [eauto|].
  destruct (eqb q p); eauto.
Qed.
Lemma add_pending_same p b n : dmem p (pend (add_pending p b n)) = true.
Proof.
  apply dmem_some. rewrite add_pending_get. destruct (dmem p (pend n)) eqn:E; [now apply dmem_some in E|]. rewrite eqb_refl. eauto.
Qed.
Lemma add_pending_wf p b n : dwf (pend n) -> dwf (pend (add_pending p b n)).
Proof. intros H. unfold add_pending. destruct (dmem p (pend n)); [exact H|]. now apply dwf_dset. Qed.
Lemma add_pending_rest p b n : let m := add_pending p b n in
  logs m = logs n /\ wfiles m = wfiles n /\ wdirs m = wdirs n /\ seen m = seen n /\ idle m = idle n /\ chk_time m = chk_time n.
Proof. unfold add_pending. destruct (dmem p (pend n)); repeat split; reflexivity. Qed.

(** Pending directories added *)
Record more (n m : filt) : Prop := {
  m_logs : logs m = logs n; m_wf : wfiles m = wfiles n; m_wd : wdirs m = wdirs n; m_seen : seen m = seen n; m_idle : idle m = idle n;
  m_chk : chk_time m = chk_time n;
  m_dwf : dwf (pend n) -> dwf (pend m);
  m_mem : forall p, dmem p (pend n) = true -> dmem p (pend m) = true;
  m_new : forall p x, dget p (pend m) = Some x -> dget p (pend n) = Some x \/ (x = (200, Some true) /\ dmem p (wdirs n) = true) }.
Lemma more_refl n : more n n.
Proof. constructor; auto. Qed.
Lemma more_trans a b c : more a b -> more b c -> more a c.
Proof.
  intros [x1 x2 x3 x4 x5 x6 x7 x8 x9] [y1 y2 y3 y4 y5 y6 y7 y8 y9]. constructor; try congruence; auto.
  intros p x H. destruct (y9 p x H) as [H1|[H1 H2]]; [now apply x9 | right; split; [exact H1 | congruence]].
Qed.
Lemma more_add d n : dmem d (wdirs n) = true -> more n (add_pending d (Some true) n).
Proof.
  intros H. destruct (add_pending_rest d (Some true) n) as (a1 & a2 & a3 & a4 & a5 & a6). constructor; try assumption.
  - apply add_pending_wf.
  - intros p. apply add_pending_mem.
  - intros p x. rewrite add_pending_get. destruct (dmem d (pend n)); [auto|]. destruct (eqb_spec p d) as [->|_]; [|auto].
    intros [= <-]. now right.
Qed.
Lemma more_fold (g : path -> bool) l n : (forall d, In d l -> dmem d (wdirs n) = true) ->
  more n (fold_left (fun m d => if g d then add_pending d (Some true) m else m) l n).
Proof.
  revert n. induction l as [|d l IH]; intros n H; [apply more_refl|]. cbn [fold_left].
  assert (H1 : more n (if g d then add_pending d (Some true) n else n)).
  { destruct (g d); [apply more_add, H; now left | apply more_refl]. }
  apply (more_trans _ _ _ H1). apply IH. intros e He. rewrite (m_wd _ _ H1). apply H. now right.
Qed.
Lemma callback_more e f n : more n (fst (callback e f n)).
Proof.
  unfold callback. destruct e as [p|p|p|p|p]; cbn [fst]; try apply more_refl.
  - destruct (negb (dmem p (wdirs n)) && dmem p (wfiles n)); apply more_refl.
  - destruct (dmem p (wdirs n)) eqn:Ed; cbn [andb negb orb].
    + destruct (negb (isdir f p)); [now apply more_add|]. apply more_fold. intros d. apply dmem_In.
    + destruct (dmem p (wfiles n)); [apply more_refl|]. apply more_fold. intros d. apply dmem_In.
  - destruct (dmem p (wdirs n)) eqn:Ed; cbn [andb negb orb].
    + now apply more_add.
    + destruct (dmem p (wfiles n)); [apply more_refl|]. apply more_fold. intros d. apply dmem_In.
Qed.
Definition event_path (e : event) : path := match e with EModify p | ECreate p | ECreateDir p | EIgnored p | EGone p => p end.
Lemma callback_todo e f n : snd (callback e f n) =
  if negb (dmem (event_path e) (wdirs n)) && dmem (event_path e) (wfiles n)
  then match e with ECreateDir _ => [] | ECreate p => [RefreshFile p true] | _ => [CheckFile (event_path e)] end else [].
Proof.
  unfold callback. destruct e as [p|p|p|p|p]; cbn [event_path snd]; destruct (negb (dmem p (wdirs n)) && dmem p (wfiles n)); reflexivity.
Qed.
Lemma callback_gone d f n : dmem d (wdirs n) = true -> dmem d (pend (fst (callback (EGone d) f n))) = true.
Proof. intros H. unfold callback. rewrite H. cbn [negb andb orb fst]. apply add_pending_same. Qed.

Section Thread.
  Variable s : state.
  Hypothesis HI : Inv s.
  Let HF := i_fs s HI.
  Let HK := i_k s HI.
  Let HN := i_n s HI.

  Lemma log_watched p : todo s = [] -> In p (logs (N s)) -> dmem p (wfiles (N s)) = true /\ dmem (dirname p) (wdirs (N s)) = true /\ dmem p (wdirs (N s)) = false.
  Proof.
    intros Ht Hp. destruct (ni_lw _ _ HN p Hp) as [H1|(c & r & H1)]; [|congruence].
    destruct (ni_ld _ _ HN p Hp) as [H2|(r & H2)]; [|congruence]. repeat split; try assumption.
    destruct (dmem p (wdirs (N s))) eqn:E; [|reflexivity]. now destruct (ni_dl _ _ HN p E).
  Qed.

  (** *** The next event *)
  Lemma Inv_callback e q n1 t : todo s = [] -> queue (K s) = e :: q -> callback e (F s) (N s) = (n1, t) ->
    Inv (mkS (F s) (mkK (watches (K s)) (next_wd (K s)) q) n1 t).
  Proof.
    intros Ht Hq Hc. pose proof (callback_more e (F s) (N s)) as Hm. pose proof (callback_todo e (F s) (N s)) as Hs.
    rewrite Hc in Hm, Hs. cbn [fst snd] in Hm, Hs. destruct Hm as [m1 m2 m3 m4 m5 m6 m7 m8 m9].
    assert (Hshape : t = [] \/ (In (event_path e) (logs (N s)) /\ (t = [CheckFile (event_path e)] \/ t = [RefreshFile (event_path e) true]))).
    { rewrite Hs. destruct (negb _ && _) eqn:E; [|now left]. apply andb_true_iff in E as [_ E]. apply (ni_wl _ _ HN) in E.
      destruct e; cbn [event_path] in *; auto. }
    assert (Hlog : forall p, In p (logs (N s)) -> p = event_path e -> t = match e with ECreateDir _ => [] | ECreate p => [RefreshFile p true] | _ => [CheckFile (event_path e)] end).
    { intros p Hp ->. destruct (log_watched _ Ht Hp) as (L1 & L2 & L3). rewrite Hs, L1, L3. reflexivity. }
    constructor; cbn [F K N todo].
    - exact HF.
    - rewrite m2, m3. destruct HK as [x1 x2 x3 x4 x5 x6 x7 x8]. constructor; assumption.
    - destruct HN as [a1 a2 a3 a4 a5 a6 a7 a8 a9 a10 a11 a12 a13 a14 a15]. rewrite Ht in *.
      constructor; rewrite ?m1, ?m2, ?m3, ?m5; try assumption; auto.
      + intros p Hp. left. destruct (a5 p Hp) as [H|(c & r & H)]; [exact H | discriminate].
      + intros p c r E. destruct Hshape as [->|[_ [-> | ->]]]; discriminate.
      + intros p Hp. left. destruct (a8 p Hp) as [H|(r & H)]; [exact H | discriminate].
      + intros p r E. destruct Hshape as [->|[_ [-> | ->]]]; discriminate.
      + intros m. destruct Hshape as [->|[_ [-> | ->]]]; intros [].
      + intros m. destruct Hshape as [->|[Hl [-> | ->]]]; [intros []|intros [<-|[]]; exact Hl|intros [<-|[]]; exact Hl].
      + intros p r E. left. destruct (m9 _ _ E) as [E1|[_ E1]]; [|exact E1]. destruct (a13 p r E1) as [H|(u & H)]; [exact H | discriminate].
      + intros p r b E Hb. destruct (m9 _ _ E) as [E1|[E1 _]]; [now apply (a14 p r b) | congruence].
    - intros m. destruct Hshape as [->|[Hl [-> | ->]]]; [intros []|intros [<-|[]]; exact I|intros [<-|[]]; exact I].
    - intros d Hd. rewrite m3 in Hd. destruct (i_d s HI d Hd) as [H|[H|[H|H]]]; unfold DC; cbn [F K N todo queue watches].
      + left. now apply m8.
      + rewrite Hq in H. destruct H as [->|H]; [|auto]. left.
        pose proof (callback_gone d (F s) (N s) Hd) as Hg. now rewrite Hc in Hg.
      + rewrite Ht in H. destruct H.
      + auto.
    - intros p Hp. rewrite m1 in Hp. pose proof (i_f s HI p Hp) as H. unfold FC, known in *. cbn [F K N todo queue watches] in *.
      rewrite Ht, Hq in H. rewrite m4. destruct H as [H|[H|[H|[(m & [] & _)|[H|(w & W1 & W2 & W3 & W4)]]]]].
      + left. now apply m8.
      + destruct H as [->|H]; [|auto]. left. destruct (log_watched p Ht Hp) as (_ & L & _).
        pose proof (callback_gone _ (F s) (N s) L) as Hg. now rewrite Hc in Hg.
      + destruct H as [->|H]; [|auto]. right; right; right; left. exists (RefreshFile p true). rewrite (Hlog p Hp eq_refl).
        split; [now left | reflexivity].
      + auto 10.
      + right; right; right; right; right. exists w. repeat split; try assumption.
        destruct W4 as [W4|[[->|W4]|[[->|W4]|[W4|[[]|[]]]]]]; auto 10.
        * right; right; right; right; right. rewrite (Hlog p Hp eq_refl). now left.
        * right; right; right; right; right. rewrite (Hlog p Hp eq_refl). now left.
  Qed.

  (** *** Looking at what is pending *)
  Lemma Inv_check now later n1 t : todo s = [] -> check_pending now later (F s) (N s) = (n1, t) -> Inv (mkS (F s) (K s) n1 t).
  Proof.
    intros Ht Hc. unfold check_pending in Hc.
    assert (Hsame : s = mkS (F s) (K s) (N s) []) by (destruct s; cbn in Ht |- *; now rewrite Ht).
    destruct (pend (N s)) as [|x0 l0] eqn:El.
    { injection Hc as <- <-. rewrite <- Hsame. exact HI. }
    rewrite <- El in Hc. clear El x0 l0. destruct (now <? _); [injection Hc as <- <-; rewrite <- Hsame; exact HI|].
    set (sa := fun x : path * (Z * option bool) => look now (chk_time (N s)) (F s) (fst (snd x)) (snd (snd x)) (fst x)) in Hc.
    injection Hc as <- <-.
    set (pend' := map (fun x => (fst x, (fst (sa x), snd (snd x)))) (pend (N s))).
    assert (Hkeys : dkeys pend' = dkeys (pend (N s))).
    { unfold pend', dkeys. rewrite map_map. now apply map_ext. }
    assert (Hget : forall p r b, dget p pend' = Some (r, b) -> exists r', dget p (pend (N s)) = Some (r', b)).
    { intros p r b E. apply dget_In in E. unfold pend' in E. apply in_map_iff in E as ([q [r' b']] & E & Hin). cbn [fst snd] in E.
      injection E as -> _ ->. exists r'. apply In_dget; [apply (ni_pwf _ _ HN) | exact Hin]. }
    assert (Hmem : forall p, dmem p pend' = dmem p (pend (N s))).
    { intros p. destruct (dmem p (pend (N s))) eqn:E.
      - apply dmem_In. rewrite Hkeys. now apply dmem_In.
      - destruct (dmem p pend') eqn:E'; [|reflexivity]. apply dmem_In in E'. rewrite Hkeys in E'. apply dmem_In in E'. congruence. }
    set (t := map (fun x => Found (fst x) (snd (snd x))) (filter (fun x => snd (sa x)) (pend (N s)))).
    assert (Hfound : forall m, In m t -> exists p r b, m = Found p b /\ dget p (pend (N s)) = Some (r, b) /\
              match b with Some true => isdir (F s) p = true | _ => isfile (F s) p = true end).
    { intros m Hm. apply in_map_iff in Hm as ([p [r b]] & <- & Hin). apply filter_In in Hin as [Hin Hs]. exists p, r, b.
      split; [reflexivity|]. split; [apply In_dget; [apply (ni_pwf _ _ HN) | exact Hin]|].
      unfold sa, look in Hs. cbn [fst snd] in Hs. destruct (_ <? _); [discriminate|]. destruct b as [[|]|].
      - now destruct (isdir (F s) p).
      - now destruct (isfile (F s) p).
      - now destruct (isfile (F s) p). }
    match goal with |- Inv (mkS _ _ (set_times _ _ (set_pend ?x _)) ?y) => change x with pend'; change y with t end.
    constructor; cbn [F K N todo].
    - exact HF.
    - exact HK.
    - destruct HN as [a1 a2 a3 a4 a5 a6 a7 a8 a9 a10 a11 a12 a13 a14 a15]. rewrite Ht in *.
      constructor; cbn [set_times set_pend logs wfiles wdirs pend idle]; try assumption; auto.
      + unfold dwf. rewrite Hkeys. exact a3.
      + intros p Hp. left. destruct (a5 p Hp) as [H|(c & r & H)]; [exact H | discriminate].
      + intros p c r E. destruct (Hfound (AddFile p c)) as (q & u & b & E1 & _); [rewrite E; now left | discriminate].
      + intros p Hp. left. destruct (a8 p Hp) as [H|(r & H)]; [exact H | discriminate].
      + intros p r E. destruct (Hfound (AddDir p)) as (q & u & b & E1 & _); [rewrite E; now left | discriminate].
      + intros m Hm. destruct (Hfound m) as (q & u & b & -> & _); [|exact I]. destruct t; [destruct Hm | now right].
      + intros m Hm. destruct (Hfound m Hm) as (q & u & b & -> & E1 & _). destruct b as [[|]|].
        * destruct (a13 q u E1) as [H|(v & H)]; [now apply a9 | discriminate].
        * now apply (a14 q u (Some false)).
        * now apply (a14 q u None).
      + intros p r E. apply Hget in E as (r' & E). left. destruct (a13 p r' E) as [H|(v & H)]; [exact H | discriminate].
      + intros p r b E. apply Hget in E as (r' & E). now apply (a14 p r').
    - intros m Hm. destruct (Hfound m Hm) as (q & u & b & -> & E1 & E2). destruct b as [[|]|]; [exact E2 | exact I | exact I].
    - intros d Hd. destruct (i_d s HI d Hd) as [H|[H|[H|H]]]; unfold DC; cbn [F K N todo set_times set_pend pend].
      + left. now rewrite Hmem.
      + auto.
      + rewrite Ht in H. destruct H.
      + auto.
    - intros p Hp. pose proof (i_f s HI p Hp) as H. unfold FC, known in *. cbn [F K N todo set_times set_pend pend seen] in *.
      rewrite !Hmem. rewrite Ht in H. destruct H as [H|[H|[H|[(m & [] & _)|[H|(w & W1 & W2 & W3 & W4)]]]]]; auto 10.
      right; right; right; right; right. exists w. repeat split; try assumption.
      destruct W4 as [W4|[W4|[W4|[W4|[[]|[]]]]]]; auto 10.
  Qed.
End Thread.
