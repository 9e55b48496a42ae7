(** Proofs about the filter: regular expressions, buffer, errors. *)
From Verif Require Import Base Text IPAddr_Model Utils_Model Lines_Model Lines_Spec Lines_Proofs Session_Model Session_Spec Session_Proofs Session_Proofs2 Ignore_Model
  Ticket_Model FailManager_Model Filter_Model Filter_Spec Filter_Proofs.
Require Import ZifyBool ZifyNat.
Local Open Scope list_scope.

(** ** one line, no prefregex *)
Lemma shown_text w oper lt ld i : let '(_, _, l, _) := line_date w oper lt ld i in shown l = text_searched w ld i.
Proof.
  unfold line_date, text_searched. rewrite recent_eq. destruct i as [t|[[a t] b] d]; [|reflexivity]. unfold stamp.
  destruct (fw_detect w t) as [[[s e] d]|].
  - destruct (firstn (e - s) (skipn s t)) as [|c m] eqn:M.
    + apply slice_empty in M. rewrite M. destruct (recent (fw_now w) ld), d; reflexivity.
    + assert (L : Nat.ltb s (Nat.min e (length t)) = true).
      { destruct (Nat.ltb s (Nat.min e (length t))) eqn:L; [reflexivity|]. apply slice_empty in L. congruence. }
      rewrite L. destruct d as [d|]; [destruct (recent (fw_now w) ld); reflexivity|]. destruct (recent (fw_now w) ld); reflexivity.
  - destruct (recent (fw_now w) ld); cbn; now rewrite ?app_nil_r.
Qed.
Lemma ignore_spec cfg buf : (exists p, In p (c_ignore cfg) /\ matches p buf) <-> existsb (fun p => match p buf with Some _ => true | None => false end) (c_ignore cfg) = true.
Proof.
  rewrite existsb_exists. unfold matches. split; intros (p & I & H); exists p; (split; [exact I|]); destruct (p buf); congruence.
Qed.
Lemma ignore_line_single cfg buf fo : (c_maxlines cfg <= 1)%nat -> ignore_line cfg buf fo = existsb (fun p => match p buf with Some _ => true | None => false end) (c_ignore cfg).
Proof. intros H. unfold ignore_line. destruct fo; [|reflexivity]. destruct (Nat.ltb_spec 1 (c_maxlines cfg)); [lia|reflexivity]. Qed.
Lemma loop_ignored cfg w dated org pre buf s : ignore_line cfg buf None = true -> (c_maxlines cfg <= 1)%nat ->
  forall regs lb, let '(_, s', o) := find_loop cfg w dated org pre regs buf lb s in s' = s /\ o = Failures [].
Proof.
  intros H L. induction regs as [|r regs IH]; cbn [find_loop]; intros lb; [auto|]. destruct (search r buf org); [|apply IH].
  rewrite ignore_line_single in * by exact L. rewrite H. auto.
Qed.
Lemma find_ignored cfg w lb s l dated : (c_maxlines cfg <= 1)%nat -> c_pref cfg = None -> (exists p, In p (c_ignore cfg) /\ matches p (line_buf l)) ->
  let '(_, s', o) := find_failure cfg w lb s l dated in s' = s /\ o = Failures [].
Proof.
  intros L P H. apply ignore_spec in H. unfold find_failure. destruct (Nat.ltb_spec 1 (c_maxlines cfg)); [lia|]. destruct (_ && _); [auto|]. rewrite P. apply loop_ignored; [|exact L].
  rewrite ignore_line_single by exact L. exact H.
Qed.
Lemma loop_none cfg w dated org pre buf s : forall regs lb, (forall r, In r regs -> ~ matches r buf) -> find_loop cfg w dated org pre regs buf lb s = (lb, s, Failures []).
Proof.
  induction regs as [|r regs IH]; cbn [find_loop]; intros lb N; [reflexivity|]. unfold search. destruct (r buf) as [m|] eqn:E; [|apply IH; intros r' I; apply N; now right].
  exfalso. apply (N r); [now left|]. unfold matches. congruence.
Qed.
Lemma loop_skip cfg w dated org pre buf s regs : forall regs1 lb, (forall r, In r regs1 -> ~ matches r buf) -> find_loop cfg w dated org pre (regs1 ++ regs) buf lb s = find_loop cfg w dated org pre regs buf lb s.
Proof.
  induction regs1 as [|r regs1 IH]; cbn [find_loop app]; intros lb N; [reflexivity|]. unfold search. destruct (r buf) as [m|] eqn:E; [|apply IH; intros r' I; apply N; now right].
  exfalso. apply (N r); [now left|]. unfold matches. congruence.
Qed.
Lemma undated_loop cfg w org pre buf s : (forall p, In p (c_ignore cfg) -> ~ matches p buf) -> (c_maxlines cfg <= 1)%nat -> forall regs lb, find_loop cfg w false org pre regs buf lb s = (lb, s, Failures []).
Proof.
  intros N L. induction regs as [|r regs IH]; cbn [find_loop]; intros lb; [reflexivity|]. destruct (search r buf org); [|apply IH].
  rewrite ignore_line_single by exact L. destruct (existsb _ _) eqn:E; [|apply IH]. apply ignore_spec in E as (p & I & M). now apply N in I.
Qed.
Lemma no_ignore cfg buf : (forall p, In p (c_ignore cfg) -> ~ matches p buf) -> existsb (fun p => match p buf with Some _ => true | None => false end) (c_ignore cfg) = false.
Proof. intros N. destruct (existsb _ _) eqn:E; [|reflexivity]. apply ignore_spec in E as (p & I & M). now apply N in I. Qed.
Lemma identify_named raw dns ses f : names_someone (f_groups f) -> (ses = true \/ gtext (f_groups f) "mlfid" = None) -> fst (identify raw dns ses f) <> VNone.
Proof.
  intros (k & t & I & D) H. pose proof (identify_spec raw dns ses f) as S. cbn zeta in S.
  assert (Sg : (same_but_ip f (snd (identify raw dns ses f)) /\ fst (identify raw dns ses f) = match who raw dns (gtext (f_groups f)) with None => VError | Some ids => VFound ids (snd (identify raw dns ses f)) end) -> fst (identify raw dns ses f) <> VNone).
  { intros [_ ->]. destruct (who _ _ _); discriminate. }
  assert (G : gtext (f_groups f) k = Some t) by (unfold gtext; now rewrite D).
  destruct (gtext (f_groups f) "fid") eqn:E1; [now apply Sg|]. destruct (gtext (f_groups f) "ip4") eqn:E2; [now apply Sg|]. destruct (gtext (f_groups f) "ip6") eqn:E3; [now apply Sg|]. destruct (gtext (f_groups f) "dns") eqn:E4; [now apply Sg|].
  destruct ses; [rewrite S; discriminate|]. destruct H as [H|H]; [discriminate|]. destruct I as [<-|[<-|[<-|[<-|[<-|[]]]]]]; congruence.
Qed.
Lemma named_not_none s now raw dns g ms : names_someone g -> snd (take_match s now raw dns g ms) <> VNone.
Proof.
  intros N. unfold take_match. destruct (gtext g "mlfid") as [id|] eqn:E.
  - destruct (merge_failure s now id g ms) as [c f]. destruct (truthy _ _); [discriminate|]. pose proof (identify_spec raw dns true f) as S. cbn zeta in S.
    destruct (identify raw dns true f) as [v f'] eqn:Ei. cbn [fst snd] in *.
    assert (Sg : (same_but_ip f f' /\ v = match who raw dns (gtext (f_groups f)) with None => VError | Some ids => VFound ids f' end) -> v <> VNone).
    { intros [_ ->]. destruct (who _ _ _); discriminate. }
    destruct (gtext (f_groups f) "fid"); [now apply Sg|]. destruct (gtext (f_groups f) "ip4"); [now apply Sg|]. destruct (gtext (f_groups f) "ip6"); [now apply Sg|]. destruct (gtext (f_groups f) "dns"); [now apply Sg|]. injection S as -> _. discriminate.
  - cbn [snd]. apply identify_named; [exact N|now right].
Qed.
Lemma find_single cfg w lb s l dated : (c_maxlines cfg <= 1)%nat -> c_pref cfg = None -> (forall p, In p (c_ignore cfg) -> ~ matches p (line_buf l)) ->
  find_failure cfg w lb s l dated = find_loop cfg w dated [l] [] (c_fail cfg) (line_buf l) [l] s.
Proof.
  intros L P N. pose proof (no_ignore _ _ N) as Ni. unfold find_failure. destruct (Nat.ltb_spec 1 (c_maxlines cfg)); [lia|]. fold (line_buf l).
  unfold ignore_line. rewrite Ni, andb_false_r, P. reflexivity.
Qed.
Lemma update_all_nil g : dwf g -> update_all [] g = g.
Proof.
  unfold update_all. intros W. assert (H : forall a, dwf (a ++ g) -> fold_left (fun d kv => dset (fst kv) (snd kv) d) g a = a ++ g).
  { clear W. induction g as [|[k v] g IH]; intros a W; cbn [fold_left fst snd]; [now rewrite app_nil_r|].
    assert (E : dset k v a = a ++ [(k, v)]).
    { apply dset_notin. unfold dwf in W. rewrite dkeys_app in W. cbn in W. apply NoDup_remove_2 in W. intros I. apply W. apply in_or_app. now left. }
    rewrite E. rewrite IH; rewrite <- app_assoc; [reflexivity|exact W]. }
  apply (H []). exact W.
Qed.
Lemma loop_first cfg w dated l r post s m : (c_maxlines cfg <= 1)%nat -> (forall p, In p (c_ignore cfg) -> ~ matches p (line_buf l)) -> r (line_buf l) = Some m -> names_someone (update_all [] (m_groups m)) ->
  find_loop cfg w dated [l] [] (r :: post) (line_buf l) [l] s =
  if dated then let '(s, v) := take_match s (fw_now w) (c_raw cfg) (fw_dns w) (update_all [] (m_groups m)) [l] in
                ([], s, match v with VFound ids fl => Failures (map (fun i => (i, fl)) ids) | VError => Raised | _ => Failures [] end)
  else ([l], s, Failures []).
Proof.
  intros L N M G. destruct dated.
  - cbn [find_loop]. unfold search. rewrite M. cbn [length Nat.leb fd_match fd_unmatched fd_matched]. rewrite ignore_line_single by exact L. rewrite no_ignore by exact N. cbn [negb].
    pose proof (named_not_none s (fw_now w) (c_raw cfg) (fw_dns w) (update_all [] (m_groups m)) [l] G) as V.
    destruct (take_match s _ _ _ _ _) as [s' v]. cbn [snd] in V. destruct v; congruence || reflexivity.
  - now apply undated_loop.
Qed.
Lemma find_first cfg w lb s l dated pre r post m : (c_maxlines cfg <= 1)%nat -> c_pref cfg = None -> (forall p, In p (c_ignore cfg) -> ~ matches p (line_buf l)) ->
  c_fail cfg = pre ++ r :: post -> (forall p, In p pre -> ~ matches p (line_buf l)) -> r (line_buf l) = Some m -> dwf (m_groups m) -> names_someone (m_groups m) ->
  find_failure cfg w lb s l dated = find_failure (with_fail [r] cfg) w lb s l dated.
Proof.
  intros L P N F Np M W G. rewrite !find_single by assumption. cbn [with_fail c_fail]. rewrite F, loop_skip by exact Np.
  rewrite !(loop_first _ w dated l r _ s m) by (rewrite ?update_all_nil; assumption). reflexivity.
Qed.

(** ** the line buffer *)
Lemma rindex_lt s : forall n i, rindex_nl s n = Some i -> (i < n)%nat.
Proof.
  induction s as [|c s IH]; intros [|n] i; cbn; try discriminate. destruct (rindex_nl s n) as [j|] eqn:E.
  - intros [= <-]. apply IH in E. lia.
  - destruct (eqb c nl); [|discriminate]. intros [= <-]. lia.
Qed.
Lemma rindex_len s : forall n i, rindex_nl s n = Some i -> (i < length s)%nat.
Proof.
  induction s as [|c s IH]; intros [|n] i; cbn; try discriminate. destruct (rindex_nl s n) as [j|] eqn:E.
  - intros [= <-]. apply IH in E. lia.
  - destruct (eqb c nl); [|discriminate]. intros [= <-]. lia.
Qed.
Lemma index_ge s : forall n i, index_nl s n = Some i -> (n <= i)%nat.
Proof.
  induction s as [|c s IH]; intros n i; cbn; [discriminate|]. destruct n as [|n]; [lia|]. destruct (index_nl s n) as [j|] eqn:E; cbn; [|discriminate]. intros [= <-]. apply IH in E. lia.
Qed.
Lemma search_shorter p buf org f : proper p -> search p buf org = Some f -> (length (fd_unmatched f) <= length org)%nat.
Proof.
  intros Pr E. unfold search in E. destruct (p buf) as [m|] eqn:M; [|discriminate]. apply Pr in M. injection E as <-. destruct (Nat.leb_spec (length org) 1); [cbn; lia|].
  cbv zeta. set (ls := match rindex_nl buf (m_start m + 1) with Some i => S i | None => O end). set (from := match m_end m with O => Nat.pred (length buf) | S e => e end).
  set (le := match index_nl buf from with Some i => S i | None => length buf end).
  assert (Hle : (ls <= le)%nat).
  { unfold ls, le, from. destruct (rindex_nl buf (m_start m + 1)) as [i|] eqn:R; [|lia]. pose proof (rindex_len _ _ _ R). apply rindex_lt in R.
    destruct (m_end m) as [|e] eqn:En; [lia|]. destruct (index_nl buf e) as [j|] eqn:I; [apply index_ge in I; lia|lia]. }
  apply (count_mono buf) in Hle. set (c1 := count_nl buf ls) in *. set (c2 := count_nl buf le) in *.
  destruct (move_spec (skipped_lines m) [] (skipn c1 (firstn c2 org)) (firstn c1 org)) as (kept & popped & Mv & Mg & _). rewrite Mv. cbn [fd_unmatched]. apply merge_length in Mg.
  assert (Q : length org = (length (firstn c1 org) + (length (skipn c1 (firstn c2 org)) + length (skipn c2 org)))%nat) by (rewrite (firstn_skipn_mid org c1 c2 Hle) at 1; now rewrite !app_length).
  rewrite !app_length. lia.
Qed.
Lemma loop_buffer cfg w dated org pre n : forall regs buf lb s, Forall proper regs -> (length org <= n)%nat -> (length lb <= n)%nat -> (length (fst (fst (find_loop cfg w dated org pre regs buf lb s))) <= n)%nat.
Proof.
  induction regs as [|r regs IH]; cbn [find_loop]; intros buf lb s P L1 L2; [exact L2|]. inversion P as [|? ? Pr Ps]; subst.
  destruct (search r buf org) as [f|] eqn:E; [|auto]. apply search_shorter in E; [|exact Pr]. destruct (ignore_line _ _ _); [cbn; lia|]. destruct dated; cbn [negb]; [|auto].
  destruct (take_match _ _ _ _ _ _) as [s' v]. destruct v; cbn [fst]; try lia. apply IH; auto; lia.
Qed.
Lemma find_buffer cfg w lb s l dated n : proper_cfg cfg -> (c_maxlines cfg <= n)%nat -> (1 <= n)%nat -> (length (fst (fst (find_failure cfg w lb s l dated))) <= n)%nat.
Proof.
  intros [P1 P2] M N. unfold find_failure. set (org := if Nat.ltb 1 (c_maxlines cfg) then last_lines (c_maxlines cfg) (lb ++ [l]) else [l]).
  assert (L : (length org <= n)%nat).
  { unfold org, last_lines. destruct (Nat.ltb_spec 1 (c_maxlines cfg)); [|cbn; lia]. rewrite skipn_length. lia. }
  destruct (_ && _); [exact L|]. destruct (c_pref cfg) as [p|]; [|now apply loop_buffer]. destruct (search _ _ _); [|exact L].
  destruct (gtext _ _) as [[|? ?]|]; apply loop_buffer; auto.
Qed.
Lemma process_buffer cfg w f i n : proper_cfg cfg -> (c_maxlines cfg <= n)%nat -> (1 <= n)%nat -> (length (l_buf f) <= n)%nat -> (length (l_buf (fst (fst (process_line cfg w f i)))) <= n)%nat.
Proof.
  intros P M N L. unfold process_line. destruct (line_date _ _ _ _ _) as [[[lt ld] l] [d|]].
  - destruct (sane_date _ _ _ _); [|exact L]. pose proof (find_buffer cfg w (l_buf f) (l_sess f) l true n P M N) as B. destruct (find_failure _ _ _ _ _ _) as [[lb s] o]. exact B.
  - pose proof (find_buffer cfg w (l_buf f) (l_sess f) l false n P M N) as B. destruct (find_failure _ _ _ _ _ _) as [[lb s] o]. exact B.
Qed.

(** ** the sessions *)
Definition small (s : sessions) : Prop := ca_max s = 100%nat /\ (length (ca_list s) <= 100)%nat.
Lemma take_small s now raw dns g ms : small s -> small (fst (take_match s now raw dns g ms)).
Proof. intros [A B]. exact (see_size s (mkSeen now raw dns (mkE g ms)) A B). Qed.
Lemma loop_small cfg w dated org pre : forall regs buf lb s, small s -> small (snd (fst (find_loop cfg w dated org pre regs buf lb s))).
Proof.
  induction regs as [|r regs IH]; cbn [find_loop]; intros buf lb s S; [exact S|]. destruct (search r buf org) as [f|]; [|auto]. destruct (ignore_line _ _ _); [exact S|]. destruct dated; cbn [negb]; [|auto].
  pose proof (take_small s (fw_now w) (c_raw cfg) (fw_dns w) (update_all pre (m_groups (fd_match f))) (fd_matched f) S) as T.
  destruct (take_match _ _ _ _ _ _) as [s' v]. cbn [fst] in T. destruct v; cbn [fst snd]; auto.
Qed.
Lemma process_small cfg w f i : small (l_sess f) -> small (l_sess (fst (fst (process_line cfg w f i)))).
Proof.
  intros S. assert (F : forall l d, small (snd (fst (find_failure cfg w (l_buf f) (l_sess f) l d)))).
  { intros l d. unfold find_failure. destruct (_ && _); [exact S|]. destruct (c_pref cfg) as [p|]; [|now apply loop_small]. destruct (search _ _ _); [|exact S]. destruct (gtext _ _) as [[|? ?]|]; now apply loop_small. }
  unfold process_line. destruct (line_date _ _ _ _ _) as [[[lt ld] l] [d|]].
  - destruct (sane_date _ _ _ _); [|exact S]. specialize (F l true). destruct (find_failure _ _ _ _ _ _) as [[lb s] o]. exact F.
  - specialize (F l false). destruct (find_failure _ _ _ _ _ _) as [[lb s] o]. exact F.
Qed.

(** ** a line changes buffer, sessions and counters as processing left them *)
Lemma line_rest cfg w f i : let '(f1, o, _) := process_line cfg w f i in let f' := fst (line_step cfg w f i) in
  l_buf f' = l_buf f1 /\ l_sess f' = l_sess f1 /\
  ((l_lines f' = l_lines f + 1 /\ l_errors f' = l_errors f / 2 /\ l_idle f' = l_idle f) \/
   (l_lines f' = l_lines f /\ if l_errors f + 1 >=? 100 then l_errors f' = (l_errors f + 1) / 2 /\ l_idle f' = true else l_errors f' = l_errors f + 1 /\ l_idle f' = l_idle f)).
Proof.
  pose proof (process_same cfg w f i) as S. unfold line_step. destruct (process_line cfg w f i) as [[f1 o] t]. destruct S as (_ & _ & _ & _ & S1 & S2 & S3).
  assert (CE : forall f0, l_buf (common_error f0) = l_buf f0 /\ l_sess (common_error f0) = l_sess f0 /\ l_lines (common_error f0) = l_lines f0 /\
     if l_errors f0 + 1 >=? 100 then l_errors (common_error f0) = (l_errors f0 + 1) / 2 /\ l_idle (common_error f0) = true else l_errors (common_error f0) = l_errors f0 + 1 /\ l_idle (common_error f0) = l_idle f0).
  { intros f0. unfold common_error. destruct (_ >=? 100); cbn; auto. }
  destruct o as [l|].
  - destruct (count_all w f1 t l) as [[f2 evs] ok] eqn:E. apply count_settings in E as (_ & _ & E3 & E4 & E5 & E6 & E7). destruct ok; cbn [negb fst].
    + cbn zeta. cbn [with_count l_lines]. destruct (_ =? 0); cbn [with_count l_fm l_svc l_queue]; [destruct (perform_svc _ _ _)|];
        cbn [with_fm with_count l_buf l_sess l_lines l_errors l_idle]; rewrite E3, E4, E5, E6, E7, S1, S2, S3; repeat split; left; auto.
    + destruct (CE f2) as (-> & -> & -> & C). rewrite E3, E4, E5, S1. rewrite E6, E7, S2, S3 in C. auto.
  - cbn [fst]. destruct (CE f1) as (-> & -> & -> & C). rewrite S1. rewrite S2, S3 in C. auto.
Qed.
Lemma attempt_rest w f id m : let f' := fst (add_attempt w f id m) in l_buf f' = l_buf f /\ l_sess f' = l_sess f /\ l_lines f' = l_lines f /\ l_errors f' = l_errors f /\ l_idle f' = l_idle f.
Proof.
  cbn zeta. unfold add_attempt. destruct (ip_new id CUnspec) as [ip|]; [|auto]. destruct (add_failure _ _ _ _ _) as [fm n]. cbn [fst].
  destruct (n >=? fm_retry fm); [|auto]. destruct (perform_ban _ _ _ _ _) as [[[? ?] ?]|]; auto.
Qed.
Record bounded (n : nat) (fed : Z) (f : flt) : Prop := {
  B_buf : (length (l_buf f) <= n)%nat;
  B_sess : small (l_sess f);
  B_err : 0 <= l_errors f < 100;
  B_failed : l_errors f <= fed - l_lines f;
  B_idle : l_idle f = true -> 100 <= fed - l_lines f;
  B_lines : 0 <= l_lines f <= fed
}.
Lemma run_bounded n ops : (1 <= n)%nat -> forall fed f f' evs, max_lines n ops -> bounded n fed f -> flt_run f ops = (f', evs) -> bounded n (fed + lines_fed ops) f'.
Proof.
  intros N1. induction ops as [|o ops IH]; cbn [flt_run]; intros fed f f' evs M B E; [injection E as <- <-; cbn; now rewrite Z.add_0_r|].
  destruct (flt_step f o) as [f1 e] eqn:E1. destruct (flt_run f1 ops) as [f2 es] eqn:E2. injection E as <- <-.
  assert (M' : max_lines n ops) by (intros cfg w i I; apply (M cfg w i); now right). 
  assert (K : forall k, lines_fed (o :: ops) = k + lines_fed ops -> bounded n (fed + k) f1 -> bounded n (fed + lines_fed (o :: ops)) f2).
  { intros k -> B1. rewrite Z.add_assoc. eapply IH; eauto. }
  assert (Same : (l_buf f1 = l_buf f /\ l_sess f1 = l_sess f /\ l_lines f1 = l_lines f /\ l_errors f1 = l_errors f /\ l_idle f1 = l_idle f) -> lines_fed (o :: ops) = 0 + lines_fed ops -> bounded n (fed + lines_fed (o :: ops)) f2).
  { intros (H1 & H2 & H3 & H4 & H5) L. apply (K 0); [exact L|]. destruct B. rewrite Z.add_0_r. constructor; rewrite ?H1, ?H2, ?H3, ?H4, ?H5; auto. }
  destruct o as [cfg w i|o|w id m|k|k|k]; cbn [flt_step] in E1.
  - apply (K 1); [reflexivity|]. destruct (M cfg w i (or_introl eq_refl)) as [Ml Pc]. destruct B as [B1 B2 B3 B4 B5 B6].
    pose proof (process_buffer cfg w f i n Pc Ml N1 B1) as Bb. pose proof (process_small cfg w f i B2) as Bs. pose proof (line_rest cfg w f i) as R.
    destruct (process_line cfg w f i) as [[fp o] t]. rewrite E1 in R. cbn [fst] in *. destruct R as (R1 & R2 & R3).
    pose proof (Z.div_pos (l_errors f) 2). pose proof (Z.div_le_upper_bound (l_errors f) 2 (l_errors f)). pose proof (Z.div_pos (l_errors f + 1) 2).
    pose proof (Z.div_lt_upper_bound (l_errors f + 1) 2 100). pose proof (Z.div_le_upper_bound (l_errors f + 1) 2 (l_errors f + 1)).
    assert (R4 : l_idle f1 = true -> l_idle f1 = l_idle f \/ 100 <= fed + 1 - l_lines f).
    { destruct R3 as [(_ & _ & ->)|(_ & R3)]; [auto|]. destruct (Z.geb_spec (l_errors f + 1) 100); destruct R3 as [_ ->]; [right; lia|auto]. }
    constructor; [now rewrite R1|now rewrite R2| | | |].
    + destruct R3 as [(_ & -> & _)|(_ & R3)]; [lia|]. destruct (Z.geb_spec (l_errors f + 1) 100); destruct R3 as [-> _]; lia.
    + destruct R3 as [(-> & -> & _)|(-> & R3)]; [lia|]. destruct (Z.geb_spec (l_errors f + 1) 100); destruct R3 as [-> _]; lia.
    + intros Hi. destruct R3 as [(R3 & _ & I)|(R3 & _)]; rewrite R3.
      * rewrite I in Hi. specialize (B5 Hi). lia.
      * destruct (R4 Hi) as [I|]; [rewrite I in Hi; specialize (B5 Hi)|]; lia.
    + destruct R3 as [(-> & _)|(-> & _)]; lia.
  - injection E1 as <- <-. apply Same; auto.
  - apply Same; [|reflexivity]. pose proof (attempt_rest w f id m) as A. cbn zeta in A. destruct (add_attempt w f id m). injection E1 as <- <-. exact A.
  - injection E1 as <- <-. apply Same; auto.
  - injection E1 as <- <-. apply Same; auto.
  - injection E1 as <- <-. apply Same; auto.
Qed.
Lemma init_bounded n : bounded n 0 flt_init.
Proof. constructor; cbn; try lia. split; cbn; lia. Qed.
