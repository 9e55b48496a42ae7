(** The reading of a log, for any encoding in which the next line of the rest of a file is well-defined. *)
From Verif Require Import Base Text LogFile_Model LogFile_Spec.
From Coq Require Import Lia List.
Local Open Scope nat_scope.
Import ListNotations.

Lemma skipn_add : forall (A : Type) (l : list A) m n, skipn (m + n) l = skipn n (skipn m l).
Proof. induction l; intros [|m] n; cbn; auto. now rewrite skipn_nil. Qed.
Lemma skipn_app_le : forall (A : Type) (l k : list A) n, n <= length l -> skipn n (l ++ k) = skipn n l ++ k.
Proof. intros. rewrite skipn_app. replace (n - length l) with 0 by lia. reflexivity. Qed.
Lemma firstn_app_le : forall (A : Type) (l k : list A) n, n <= length l -> firstn n (l ++ k) = firstn n l.
Proof. intros. rewrite firstn_app. replace (n - length l) with 0 by lia. cbn. now rewrite app_nil_r. Qed.

(** ** raw lines *)
Lemma raw_line_app : forall d x, In LF d -> raw_line (d ++ x) = raw_line d.
Proof.
  induction d as [|c d IH]; intros x H; [destruct H|].
  cbn. destruct (Ascii.eqb c LF) eqn:E; [reflexivity|].
  f_equal. apply IH. destruct H as [->|H]; [now rewrite Ascii.eqb_refl in E|exact H].
Qed.
Lemma raw_line_no : forall d, ~ In LF d -> raw_line d = d.
Proof.
  induction d as [|c d IH]; intros H; [reflexivity|].
  cbn. destruct (Ascii.eqb_spec c LF) as [->|N]; [destruct H; now left|]. f_equal. apply IH. intros X. apply H. now right.
Qed.
Lemma raw_line_split : forall d, In LF d -> exists x r, d = x ++ LF :: r /\ ~ In LF x /\ raw_line d = x ++ [LF].
Proof.
  induction d as [|c d IH]; intros H; [destruct H|].
  destruct (Ascii.eqb_spec c LF) as [->|N].
  - exists [], d. repeat split; auto.
  - destruct IH as (x & r & -> & Hx & E). { destruct H; [congruence|assumption]. }
    exists (c :: x), r. cbn. destruct (Ascii.eqb_spec c LF); [congruence|]. rewrite E.
    repeat split; auto. intros [X|X]; [congruence|auto].
Qed.
Lemma raw_line_prefix : forall d, exists r, d = raw_line d ++ r.
Proof.
  induction d as [|c d IH]; [now exists []|].
  cbn. destruct (Ascii.eqb c LF); [now exists d|]. destruct IH as [r E]. exists r. cbn. now rewrite <- E.
Qed.
Lemma ends_line_snoc : forall x c, ends_line (x ++ [c]) = Ascii.eqb c LF || Ascii.eqb c CR.
Proof. intros. unfold ends_line. now rewrite rev_app_distr. Qed.

Section Generic.
Context (dec : bytes -> chars) (enc : chars -> bytes) (md5 : bytes -> string).
Hypothesis md5_some : forall b, md5 b <> ""%string.
Context (good : bytes -> Prop) (next : bytes -> option (chars * nat)).
Hypothesis good_nil : good [].
Hypothesis next_read : forall d p, good (skipn p d) ->
  readline dec enc d p = match next (skipn p d) with Some (l, n) => (Some l, p + n) | None => (None, p) end.
Hypothesis next_len : forall r l n, next r = Some (l, n) -> 0 < n <= length r.
Hypothesis next_app : forall r l n x, next r = Some (l, n) -> next (r ++ x) = Some (l, n).
Hypothesis good_next : forall r l n, good r -> next r = Some (l, n) -> good (skipn n r).
Hypothesis good_cr : forall r, good r -> ends_line (raw_line r) = true -> In LF r.

(** [ls] are the lines in the first [m] bytes of [r] *)
Inductive Path : bytes -> list chars -> nat -> Prop :=
| P0 r : Path r [] 0
| PS r l n ls m : next r = Some (l, n) -> Path (skipn n r) ls m -> Path r (l :: ls) (n + m).

Lemma Path_len : forall r ls m, Path r ls m -> m <= length r.
Proof.
  induction 1; [lia|]. apply next_len in H. rewrite skipn_length in IHPath. lia.
Qed.
Lemma Path_snoc : forall r ls m, Path r ls m -> forall l n, next (skipn m r) = Some (l, n) -> Path r (ls ++ [l]) (m + n).
Proof.
  induction 1; intros l' n' E.
  - cbn in *. replace n' with (n' + 0) by lia. econstructor; eauto. constructor.
  - rewrite skipn_add in E. rewrite <- Nat.add_assoc. cbn. econstructor; eauto.
Qed.
Lemma Path_app : forall r ls m, Path r ls m -> forall x, Path (r ++ x) ls m.
Proof.
  induction 1; intros x; [constructor|]. econstructor; [eapply next_app; eauto|].
  rewrite skipn_app_le; [apply IHPath|]. apply next_len in H. lia.
Qed.
Lemma Path_good : forall r ls m, Path r ls m -> good r -> good (skipn m r).
Proof. induction 1; intros G; [exact G|]. rewrite skipn_add. eauto. Qed.

(** ** the invariant *)
Section Inv.
Context (bs : ino -> nat).
Definition rest (w : world) (i : ino) : bytes := skipn (bs i) (data w i).
(** where the reading of the file at hand stands *)
Definition place (c : cont) : nat := match c_h c with Some (_, p) => p | None => c_pos c end.

Record Inv (s : st) : Prop := mkInv {
  v_path : forall i, exists m, Path (rest (s_w s) i) (taken i (s_trace s)) m;
  v_good : forall i, good (rest (s_w s) i);
  v_pos : exists m, place (s_c s) = bs (c_ino (s_c s)) + m /\ Path (rest (s_w s) (c_ino (s_c s))) (taken (c_ino (s_c s)) (s_trace s)) m;
  v_base : forall i, bs i <= length (data (s_w s) i);
  v_file : dmem (c_ino (s_c s)) (w_files (s_w s)) = true;
  v_handle : forall i p, c_h (s_c s) = Some (i, p) -> i = c_ino (s_c s);
  v_hash : c_hash (s_c s) = ""%string \/
    (c_hash (s_c s) = first_hash md5 (data (s_w s) (c_ino (s_c s))) /\ In LF (data (s_w s) (c_ino (s_c s))));
  v_looked : exists n, looked (s_trace s) = Some (c_ino (s_c s), n) /\ n <= length (data (s_w s) (c_ino (s_c s)))
    /\ (In LF (firstn n (data (s_w s) (c_ino (s_c s)))) -> c_hash (s_c s) <> ""%string);
  v_cur : forall i, w_cur (s_w s) = Some i -> dmem i (w_files (s_w s)) = true /\
    (i <> c_ino (s_c s) -> c_hash (s_c s) <> ""%string /\ taken i (s_trace s) = [] /\ bs i = 0);
  v_new : forall i, dmem i (w_files (s_w s)) = false -> taken i (s_trace s) = [];
  v_tail : forall i, bs i <> 0 -> In LF (data (s_w s) i)
}.

Lemma data_new : forall w i, dmem i (w_files w) = false -> data w i = [].
Proof. intros w i H. unfold data, dmem in *. now destruct (dget i (w_files w)). Qed.
Lemma first_hash_some : forall d, In LF d -> first_hash md5 d <> ""%string.
Proof.
  intros d H. unfold first_hash. destruct (raw_line_split d H) as (x & r & _ & _ & E). rewrite E, ends_line_snoc. apply md5_some.
Qed.
Lemma first_hash_app : forall d x, In LF d -> first_hash md5 (d ++ x) = first_hash md5 d.
Proof. intros. unfold first_hash. now rewrite raw_line_app. Qed.
Lemma first_hash_in : forall d, (ends_line (raw_line d) = true -> In LF d) -> first_hash md5 d <> ""%string -> In LF d.
Proof. intros d W H. unfold first_hash in H. destruct (ends_line (raw_line d)); [auto|now destruct H]. Qed.

Lemma data_set : forall f cur i d j, data (mkWorld (dset i d f) cur) j = if j =? i then d else data (mkWorld f cur) j.
Proof.
  intros. unfold data. cbn. rewrite dget_dset. unfold eqb, EqB_nat. 
  destruct (Nat.eqb_spec j i); reflexivity.
Qed.
Lemma base_le : forall s, Inv s -> forall i, bs i <= length (data (s_w s) i).
Proof. intros s V. apply (v_base _ V). Qed.
Lemma whole : forall s, Inv s -> forall i, ends_line (raw_line (data (s_w s) i)) = true -> In LF (data (s_w s) i).
Proof.
  intros s V i H. destruct (Nat.eq_dec (bs i) 0) as [E|N]; [|now apply (v_tail _ V)].
  apply good_cr; [|assumption]. generalize (v_good _ V i). unfold rest. now rewrite E.
Qed.

Lemma inv_world : forall s w' a', Inv s ->
  (forall i, exists x, data w' i = data (s_w s) i ++ x) ->
  (forall i, dmem i (w_files (s_w s)) = true -> dmem i (w_files w') = true) ->
  (forall i, good (rest w' i)) ->
  (forall i, w_cur w' = Some i -> dmem i (w_files w') = true /\
    (i <> c_ino (s_c s) -> c_hash (s_c s) <> ""%string /\ taken i (s_trace s) = [] /\ bs i = 0)) ->
  Inv (mkSt w' (s_c s) a' (s_trace s)).
Proof.
  intros s w' a' V Hd Hm Hg Hc.
  assert (Hr : forall i, exists x, rest w' i = rest (s_w s) i ++ x).
  { intros i. destruct (Hd i) as [x E]. exists x. unfold rest. rewrite E. apply skipn_app_le. now apply base_le. }
  pose proof V as [Vp Vg Vpos Vb Vf Vh Vhash Vl Vc Vn Vt].
  constructor; cbn [s_w s_c s_trace]; auto.
  - intros i. destruct (Vp i) as [m P]. destruct (Hr i) as [x ->]. exists m. now apply Path_app.
  - destruct Vpos as (m & E & P). exists m. split; [exact E|]. destruct (Hr (c_ino (s_c s))) as [x ->]. now apply Path_app.
  - intros i. destruct (Hd i) as [x ->]. rewrite app_length. specialize (Vb i). lia.
  - destruct Vhash as [E|[E I]]; [now left|]. right. destruct (Hd (c_ino (s_c s))) as [x ->].
    rewrite first_hash_app by assumption. split; [assumption|]. apply in_or_app. now left.
  - destruct Vl as (n & E & L & I). exists n. destruct (Hd (c_ino (s_c s))) as [x ->]. rewrite app_length.
    repeat split; [assumption|lia|]. rewrite firstn_app_le by assumption. assumption.
  - intros i E. apply Vn. destruct (dmem i (w_files (s_w s))) eqn:D; [|reflexivity]. apply Hm in D. congruence.
  - intros i B. destruct (Hd i) as [x ->]. apply in_or_app. left. auto.
Qed.

(** one line of the file at hand is read *)
Lemma taken_looked : forall i j n tr, taken i (Looked j n :: tr) = taken i tr.
Proof. reflexivity. Qed.

Lemma inv_read : forall s i p, Inv s -> c_h (s_c s) = Some (i, p) ->
  exists m, p = bs i + m /\ Path (rest (s_w s) i) (taken i (s_trace s)) m /\ i = c_ino (s_c s) /\
    match next (skipn p (data (s_w s) i)) with
    | Some (l, n) => readline dec enc (data (s_w s) i) p = (Some l, p + n) /\ Path (rest (s_w s) i) (taken i (s_trace s) ++ [l]) (m + n)
    | None => readline dec enc (data (s_w s) i) p = (None, p)
    end.
Proof.
  intros s i p V E. pose proof (v_handle _ V _ _ E) as ->. destruct (v_pos _ V) as (m & Em & P).
  unfold place in Em. rewrite E in Em. exists m. repeat (split; [solve [auto]|]).
  assert (G : good (skipn p (data (s_w s) (c_ino (s_c s))))).
  { rewrite Em, skipn_add. eapply Path_good; [exact P|]. apply (v_good _ V). }
  pose proof (next_read _ _ G) as R.
  destruct (next (skipn p (data (s_w s) (c_ino (s_c s))))) as [[l n]|] eqn:N; [|exact R].
  split; [exact R|]. apply Path_snoc; [exact P|]. unfold rest. now rewrite <- skipn_add, <- Em.
Qed.

Lemma inv_line : forall s i p p' l c' a' e, Inv s -> c_h (s_c s) = Some (i, p) ->
  readline dec enc (data (s_w s) i) p = (Some l, p') ->
  e = Line i l \/ e = Lost i l ->
  c_ino c' = c_ino (s_c s) -> c_hash c' = c_hash (s_c s) -> place c' = p' -> (forall j q, c_h c' = Some (j, q) -> j = i) ->
  Inv (mkSt (s_w s) c' a' (e :: s_trace s)).
Proof.
  intros s i p p' l c' a' e V E R He Ei Eh Ep Ehh.
  destruct (inv_read _ _ _ V E) as (m & Em & P & Ec & X).
  destruct (next (skipn p (data (s_w s) i))) as [[l1 n]|] eqn:N; [|congruence].
  destruct X as [R' P']. rewrite R in R'. injection R' as <- Rp.
  assert (T : forall j, taken j (e :: s_trace s) = if i =? j then taken j (s_trace s) ++ [l] else taken j (s_trace s)).
  { intros j. destruct He as [-> | ->]; reflexivity. }
  assert (L : looked (e :: s_trace s) = looked (s_trace s)) by (destruct He as [-> | ->]; reflexivity).
  pose proof V as [Vp Vg Vpos Vb Vf Vh Vhash Vl Vc Vn Vt].
  constructor; cbn [s_w s_c s_trace]; auto.
  - intros j. rewrite T. destruct (Nat.eqb_spec i j) as [->|Nj]; [eauto|apply Vp].
  - exists (m + n). rewrite Ei, <- Ec, Ep, T, Nat.eqb_refl. split; [lia|exact P'].
  - now rewrite Ei.
  - intros j q H. rewrite Ei, <- Ec. eauto.
  - now rewrite Eh, Ei.
  - rewrite L, Ei, Eh. exact Vl.
  - intros j H. destruct (Vc j H) as [D O]. split; [exact D|]. rewrite Ei, Eh. intros Nj. destruct (O Nj) as (O1 & O2 & O3).
    split; [assumption|]. split; [|assumption]. rewrite T. destruct (Nat.eqb_spec i j); [congruence|assumption].
  - intros j D. rewrite T. destruct (Nat.eqb_spec i j) as [->|Nj]; [|now apply Vn]. rewrite Ec in D. congruence.
Qed.

(** nothing is read: the file is closed *)
Lemma inv_bottom : forall s c' a' tr', Inv s ->
  c_ino c' = c_ino (s_c s) -> c_hash c' = c_hash (s_c s) -> place c' = place (s_c s) ->
  (forall j q, c_h c' = Some (j, q) -> j = c_ino (s_c s)) ->
  (forall j, taken j tr' = taken j (s_trace s)) -> looked tr' = looked (s_trace s) ->
  Inv (mkSt (s_w s) c' a' tr').
Proof.
  intros s c' a' tr' V Ei Eh Ep Ehh T L.
  pose proof V as [Vp Vg Vpos Vb Vf Vh Vhash Vl Vc Vn Vt].
  constructor; cbn [s_w s_c s_trace]; auto.
  - intros j. rewrite T. apply Vp.
  - rewrite Ei, Ep, T. apply Vpos.
  - now rewrite Ei.
  - intros j q H. rewrite Ei. eauto.
  - now rewrite Eh, Ei.
  - now rewrite L, Ei, Eh.
  - intros j H. rewrite Ei, Eh, T. now apply Vc.
  - intros j D. rewrite T. auto.
Qed.

(** the file is opened *)
Lemma inv_open : forall s now i, Inv s -> c_h (s_c s) = None -> w_cur (s_w s) = Some i ->
  exists c' b, open md5 now (s_w s) (s_c s) = (c', Some b) /\ c_ino c' = i /\
    place c' = (if i =? c_ino (s_c s) then c_pos (s_c s) else 0) /\
    (c_hash c' = ""%string \/ (c_hash c' = first_hash md5 (data (s_w s) i) /\ In LF (data (s_w s) i))) /\
    (In LF (data (s_w s) i) -> c_hash c' <> ""%string) /\
    (b = false -> c_h c' = None /\ length (data (s_w s) i) <= place c') /\
    (b = true -> c_h c' = Some (i, place c') /\ place c' < length (data (s_w s) i)).
Proof.
  intros s now i V Eh Ec.
  destruct (v_cur _ V i Ec) as [D O].
  pose proof (whole _ V i) as W.
  assert (FH : first_hash md5 (data (s_w s) i) = ""%string \/ (first_hash md5 (data (s_w s) i) = first_hash md5 (data (s_w s) i) /\ In LF (data (s_w s) i))).
  { destruct (String.string_dec (first_hash md5 (data (s_w s) i)) ""%string) as [X|X]; [now left|right]. split; [reflexivity|]. now apply first_hash_in. }
  unfold open. rewrite Ec.
  destruct (Nat.eqb_spec i (c_ino (s_c s))) as [Ei|N].
  - assert (L : length (data (s_w s) i) <? c_pos (s_c s) = false).
    { apply Nat.ltb_ge. destruct (v_pos _ V) as (m & Em & P). unfold place in Em. rewrite Eh in Em.
      apply Path_len in P. unfold rest in P. rewrite skipn_length in P. pose proof (base_le _ V i). rewrite Ei in *. lia. }
    rewrite L. cbn [orb negb].
    assert (X : exists c', (if negb (eqb (if eqb (c_hash (s_c s)) ""%string || (c_next (s_c s) <? now)%Z then first_hash md5 (data (s_w s) i) else c_hash (s_c s)) (c_hash (s_c s)))
       then if negb (eqb (c_hash (s_c s)) ""%string) then
         mkCont 0 (if eqb (c_hash (s_c s)) ""%string || (c_next (s_c s) <? now)%Z then first_hash md5 (data (s_w s) i) else c_hash (s_c s)) i
            (if (eqb (c_hash (s_c s)) ""%string || (c_next (s_c s) <? now)%Z) && ends_line (raw_line (data (s_w s) i)) then (now + 30)%Z else c_next (s_c s)) (c_h (s_c s))
         else mkCont (c_pos (s_c s)) (if eqb (c_hash (s_c s)) ""%string || (c_next (s_c s) <? now)%Z then first_hash md5 (data (s_w s) i) else c_hash (s_c s)) (c_ino (s_c s))
            (if (eqb (c_hash (s_c s)) ""%string || (c_next (s_c s) <? now)%Z) && ends_line (raw_line (data (s_w s) i)) then (now + 30)%Z else c_next (s_c s)) (c_h (s_c s))
       else mkCont (c_pos (s_c s)) (c_hash (s_c s)) (c_ino (s_c s))
            (if (eqb (c_hash (s_c s)) ""%string || (c_next (s_c s) <? now)%Z) && ends_line (raw_line (data (s_w s) i)) then (now + 30)%Z else c_next (s_c s)) (c_h (s_c s))) = c'
        /\ c_pos c' = c_pos (s_c s) /\ c_ino c' = i /\ c_h c' = None /\
        (c_hash c' = ""%string \/ (c_hash c' = first_hash md5 (data (s_w s) i) /\ In LF (data (s_w s) i))) /\
        (In LF (data (s_w s) i) -> c_hash c' <> ""%string)).
    { eexists. split; [reflexivity|].
      destruct (v_hash _ V) as [H|[H I]].
      - rewrite H. cbn [orb]. rewrite eqb_refl. cbn [orb negb].
        destruct (eqb_spec (first_hash md5 (data (s_w s) i)) ""%string) as [X|X]; cbn [negb c_pos c_ino c_h c_hash];
          repeat (split; [solve [auto]|]).
        + intros I. now apply first_hash_some in I.
        + intros I. now apply first_hash_some.
      - rewrite <- Ei in *. rewrite H.
        replace (if eqb (first_hash md5 (data (s_w s) i)) ""%string || (c_next (s_c s) <? now)%Z then first_hash md5 (data (s_w s) i) else first_hash md5 (data (s_w s) i))
          with (first_hash md5 (data (s_w s) i)) by now destruct (eqb (first_hash md5 (data (s_w s) i)) ""%string || (c_next (s_c s) <? now)%Z).
        rewrite eqb_refl. cbn [negb c_pos c_ino c_h c_hash]. repeat (split; [solve [auto]|]). intros _. now apply first_hash_some. }
    destruct X as (c' & -> & Ep & Ei' & Eh' & H1 & H2).
    rewrite Ep. destruct (Nat.leb_spec (length (data (s_w s) i)) (c_pos (s_c s))) as [LE|LT].
    + exists c', false. unfold place. rewrite Eh'. repeat (split; [solve [auto]|]). split; [|discriminate]. intros _. split; [reflexivity|]. lia.
    + eexists _, true. split; [reflexivity|]. unfold place. cbn [c_ino c_h c_hash c_pos]. repeat (split; [solve [auto]|]).
      split; [discriminate|]. auto.
  - destruct (O N) as (H & _ & _). rewrite orb_true_r. cbn [orb andb].
    apply eqb_neq in H. rewrite H. cbn [negb c_pos].
    destruct (Nat.leb_spec (length (data (s_w s) i)) 0) as [LE|LT].
    + eexists _, false. split; [reflexivity|]. unfold place. cbn [c_ino c_h c_hash c_pos]. rewrite Eh. repeat (split; [solve [auto]|]).
      split; [now apply first_hash_some|]. split; [|discriminate]. auto.
    + eexists _, true. split; [reflexivity|]. unfold place. cbn [c_ino c_h c_hash c_pos]. repeat (split; [solve [auto]|]).
      split; [now apply first_hash_some|]. split; [discriminate|]. auto.
Qed.

Lemma inv_opened : forall s c' i n, Inv s -> w_cur (s_w s) = Some i -> c_h (s_c s) = None -> n = length (data (s_w s) i) ->
  c_ino c' = i -> place c' = (if i =? c_ino (s_c s) then c_pos (s_c s) else 0) ->
  (c_hash c' = ""%string \/ (c_hash c' = first_hash md5 (data (s_w s) i) /\ In LF (data (s_w s) i))) ->
  (In LF (data (s_w s) i) -> c_hash c' <> ""%string) ->
  (forall j q, c_h c' = Some (j, q) -> j = i) -> forall a', Inv (mkSt (s_w s) c' a' (Looked i n :: s_trace s)).
Proof.
  intros s c' i n V Ec Eh En Ei Ep H1 H2 H3 a'.
  pose proof V as [Vp Vg Vpos Vb Vf Vh Vhash Vl Vc Vn Vt].
  destruct (Vc i Ec) as [D O].
  constructor; cbn [s_w s_c s_trace]; auto.
  - rewrite Ei, Ep, taken_looked. destruct (Nat.eqb_spec i (c_ino (s_c s))) as [X|N].
    + destruct Vpos as (m & Em & P). exists m. unfold place in Em. rewrite Eh in Em. rewrite X. auto.
    + destruct (O N) as (_ & T & B). exists 0. rewrite B, T. split; [reflexivity|constructor].
  - now rewrite Ei.
  - intros j q H. rewrite Ei. eauto.
  - now rewrite Ei.
  - rewrite Ei. exists n. split; [reflexivity|]. subst n. rewrite firstn_all. split; [lia|auto].
  - intros j Ej. rewrite Ei, taken_looked. assert (j = i) as -> by congruence. split; [exact D|]. intros X. now destruct X.
Qed.

Lemma inv_look : forall s now, Inv s -> Inv (look dec enc md5 now s).
Proof.
  intros s now V. unfold look. destruct (c_h (s_c s)) as [[i p]|] eqn:Eh.
  - destruct (inv_read _ _ _ V Eh) as (m & Em & P & Ec & X).
    destruct (next (skipn p (data (s_w s) i))) as [[l n]|] eqn:N.
    + destruct X as [R P']. rewrite R. destruct (s_active s).
      * eapply inv_line; eauto; try reflexivity. intros j q H. cbn in H. congruence.
      * eapply inv_line; eauto; try reflexivity. intros j q H. discriminate.
    + rewrite X. apply inv_bottom; auto.
      * unfold place. now rewrite Eh.
      * discriminate.
      * intros j. now destruct (s_active s).
      * now destruct (s_active s).
  - destruct (s_active s) eqn:A; cbn [negb]; [|assumption].
    destruct (w_cur (s_w s)) as [i|] eqn:Ec.
    + destruct (inv_open _ now _ V Eh Ec) as (c' & b & -> & Ei & Ep & H1 & H2 & B1 & B2).
      eapply inv_opened; eauto. intros j q H. destruct b.
      * destruct (B2 eq_refl) as [X _]. congruence.
      * destruct (B1 eq_refl) as [X _]. congruence.
    + unfold open. rewrite Ec. destruct s. cbn in *. subst. exact V.
Qed.

Lemma inv_restart : forall s now, Inv s -> c_h (s_c s) = None -> seen (s_w s) (s_trace s) ->
  (forall i, w_cur (s_w s) = Some i -> exists n, looked (s_trace s) = Some (i, n)) -> Inv (restart md5 now s).
Proof.
  intros s now V Eh (i & n & L & I) Hc. unfold restart.
  destruct (w_cur (s_w s)) as [j|] eqn:Ec; [|assumption].
  destruct (Hc j eq_refl) as [n' L'].
  destruct (v_looked _ V) as (n2 & L2 & Ln & Hh). rewrite L2 in *. 
  assert (j = c_ino (s_c s)) by congruence. assert (i = c_ino (s_c s)) by congruence. assert (n = n2) by congruence. subst i n j.
  specialize (Hh I).
  destruct (v_hash _ V) as [X|[X Il]]; [congruence|].
  assert (C : create md5 false now (c_ino (s_c s)) (data (s_w s) (c_ino (s_c s)))
      = mkCont 0 (c_hash (s_c s)) (c_ino (s_c s)) (now + 30) None).
  { unfold create. rewrite X. destruct (data (s_w s) (c_ino (s_c s))); [destruct Il|reflexivity]. }
  rewrite C. cbn [c_hash]. unfold last_position. rewrite eqb_refl.
  eapply inv_opened; eauto.
  - now destruct (c_pos (s_c s)).
  - rewrite Nat.eqb_refl. unfold place. now destruct (c_pos (s_c s)).
  - right. split; [|exact Il]. rewrite <- X. now destruct (c_pos (s_c s)).
  - intros _. now destruct (c_pos (s_c s)).
  - intros i q H. now destruct (c_pos (s_c s)).
Qed.

Lemma inv_step : forall s o, Inv s -> permitted good bs s o -> Inv (step dec enc md5 s o).
Proof.
  intros s o V H. destruct o as [i x|i x|i x| |now| |now]; cbn [step].
  - destruct H as [D G]. apply inv_world; [exact V| | | |].
    + intros j. rewrite data_set. destruct (Nat.eqb_spec j i) as [->|N]; [eauto|]. exists []. rewrite app_nil_r. reflexivity.
    + intros j Dj. cbn [w_files]. unfold dmem in *. rewrite dget_dset. destruct (eqb j i); auto.
    + intros j. unfold rest. rewrite data_set. destruct (Nat.eqb_spec j i) as [->|N]; [exact G|]. apply (v_good _ V j).
    + intros j Ej. cbn [w_cur] in Ej. destruct (v_cur _ V j Ej) as [Dj O]. split; [|exact O].
      cbn [w_files]. unfold dmem in *. rewrite dget_dset. destruct (eqb j i); auto.
  - destruct H as (D & G & (k & n & L & I)).
    assert (B : bs i = 0). { pose proof (v_base _ V i) as X. rewrite data_new in X by assumption. cbn in X. lia. }
    apply inv_world; [exact V| | | |].
    + intros j. rewrite data_set. destruct (Nat.eqb_spec j i) as [->|N]; [rewrite data_new by assumption; now exists x|]. exists []. rewrite app_nil_r. reflexivity.
    + intros j Dj. cbn [w_files]. unfold dmem in *. rewrite dget_dset. destruct (eqb j i); auto.
    + intros j. unfold rest. rewrite data_set. destruct (Nat.eqb_spec j i) as [->|N]; [now rewrite B|]. apply (v_good _ V j).
    + intros j Ej. cbn [w_cur] in Ej. injection Ej as <-. split; [unfold dmem; cbn [w_files]; now rewrite dget_dset_same|].
      intros _. split; [|split; [now apply (v_new _ V)|exact B]].
      destruct (v_looked _ V) as (n2 & L2 & Ln & Hh). apply Hh. rewrite L2 in L. injection L as <- <-. exact I.
  - destruct H.
  - apply inv_world; [exact V| | | |].
    + intros j. exists []. rewrite app_nil_r. reflexivity.
    + auto.
    + apply (v_good _ V).
    + discriminate.
  - now apply inv_look.
  - apply inv_world; [exact V| | | |].
    + intros j. exists []. rewrite app_nil_r. reflexivity.
    + auto.
    + apply (v_good _ V).
    + apply (v_cur _ V).
  - destruct (c_h (s_c s)) eqn:Eh; [assumption|]. destruct H. now apply inv_restart.
Qed.
Lemma inv_run : forall ops s, Inv s -> fair dec enc md5 good bs ops s -> Inv (run dec enc md5 ops s).
Proof. induction ops as [|o ops IH]; intros s V F; [exact V|]. destruct F. apply IH; [|assumption]. now apply inv_step. Qed.

(** nothing is left to read *)
Definition all_read (w : world) (i : ino) (tr : list event) : Prop :=
  exists m, Path (rest w i) (taken i tr) m /\ next (skipn m (rest w i)) = None.

Lemma look_active : forall s now, s_active s = true -> s_active (look dec enc md5 now s) = true.
Proof.
  intros s now A. unfold look. destruct (c_h (s_c s)) as [[i p]|].
  - destruct (readline dec enc (data (s_w s) i) p) as [[l|] p']; rewrite A; reflexivity.
  - rewrite A. cbn [negb]. now destruct (open md5 now (s_w s) (s_c s)).
Qed.
Lemma look_world : forall s now, s_w (look dec enc md5 now s) = s_w s.
Proof.
  intros s now. unfold look. destruct (c_h (s_c s)) as [[i p]|].
  - destruct (readline dec enc (data (s_w s) i) p) as [[l|] p']; destruct (s_active s); reflexivity.
  - destruct (s_active s); cbn [negb]; [|reflexivity]. now destruct (open md5 now (s_w s) (s_c s)).
Qed.

(** an open file is read to its end *)
Lemma read_all : forall now k s i p, Inv s -> s_active s = true -> c_h (s_c s) = Some (i, p) -> length (data (s_w s) i) - p <= k ->
  exists n, let s' := run dec enc md5 (repeat (Step now) n) s in
    s_trace s' <> s_trace s /\ (exists sz tr, s_trace s' = Bottom i sz :: tr) /\ c_h (s_c s') = None /\ all_read (s_w s') i (s_trace s') /\ c_ino (s_c s') = i.
Proof.
  intros now. induction k as [|k IH]; intros s i p V A Eh Hk.
  all: destruct (inv_read _ _ _ V Eh) as (m & Em & P & Ec & X).
  all: destruct (next (skipn p (data (s_w s) i))) as [[l n]|] eqn:N.
  1: { apply next_len in N. rewrite skipn_length in N. lia. }
  2: { destruct X as [R P'].
    pose proof (inv_look s now V) as V1. pose proof (look_world s now) as W1. pose proof (look_active s now A) as A1.
    assert (E1 : look dec enc md5 now s = mkSt (s_w s) (mkCont (c_pos (s_c s)) (c_hash (s_c s)) (c_ino (s_c s)) (c_next (s_c s)) (Some (i, p + n))) true (Line i l :: s_trace s)).
    { unfold look. rewrite Eh, R, A. reflexivity. }
    assert (Hn : 0 < n <= length (skipn p (data (s_w s) i))) by (eapply next_len; eauto).
    rewrite skipn_length in Hn.
    destruct (IH (look dec enc md5 now s) i (p + n) V1 A1) as (n' & T & B & C & D & F).
    { now rewrite E1. } { rewrite W1. lia. }
    exists (S n'). cbn [repeat run step]. repeat (split; [solve [auto]|auto]).
    split; [|auto]. intros Y. destruct B as (sz & tr & B). 
    assert (G : forall q t, length (s_trace t) <= length (s_trace (run dec enc md5 (repeat (Step now) q) t))).
    { clear. induction q as [|q IHq]; intros t; [cbn; lia|]. cbn [repeat run step]. etransitivity; [|apply IHq].
      unfold look. destruct (c_h (s_c t)) as [[i p]|].
      - destruct (readline dec enc (data (s_w t) i) p) as [[l|] p']; destruct (s_active t); cbn; lia.
      - destruct (s_active t); cbn [negb]; [|lia]. destruct (open md5 now (s_w t) (s_c t)) as [c o].
        destruct o, (w_cur (s_w t)); cbn; lia. }
    specialize (G n' (look dec enc md5 now s)). rewrite Y, E1 in G. cbn in G. lia. }
  all: exists 1; cbn [repeat run step]; unfold look; rewrite Eh, X, A; cbn [s_trace s_c s_w c_h c_ino];
    (split; [intros Y; apply (f_equal (@length event)) in Y; cbn in Y; lia|]);
    (split; [eexists _, _; reflexivity|]); (split; [reflexivity|]); (split; [|now symmetry]);
    exists m; (split; [exact P|]); unfold rest; rewrite <- skipn_add, <- Em; exact N.
Qed.
Lemma run_app : forall a b s, run dec enc md5 (a ++ b) s = run dec enc md5 b (run dec enc md5 a s).
Proof. induction a; cbn; auto. Qed.
Lemma repeat_run : forall now n s, Inv s -> s_active s = true ->
  Inv (run dec enc md5 (repeat (Step now) n) s) /\ s_active (run dec enc md5 (repeat (Step now) n) s) = true
  /\ s_w (run dec enc md5 (repeat (Step now) n) s) = s_w s.
Proof.
  induction n as [|n IH]; intros s V A; [auto|]. cbn [repeat run step].
  destruct (IH (look dec enc md5 now s)) as (V' & A' & W'); [now apply inv_look|now apply look_active|].
  repeat (split; [assumption|]). rewrite W'. apply look_world.
Qed.

(** the current file is read to its end, if the filter goes on *)
Lemma catch_up : forall now s i, Inv s -> s_active s = true -> w_cur (s_w s) = Some i ->
  exists n, all_read (s_w s) i (s_trace (run dec enc md5 (repeat (Step now) n) s)).
Proof.
  intros now.
  assert (C : forall s i, Inv s -> s_active s = true -> w_cur (s_w s) = Some i -> c_h (s_c s) = None ->
    exists n, all_read (s_w s) i (s_trace (run dec enc md5 (repeat (Step now) n) s))).
  { intros s i V A Ec Eh.
    destruct (inv_open _ now _ V Eh Ec) as (c' & b & E & Ei & Ep & H1 & H2 & B1 & B2).
    pose proof (inv_look s now V) as V1.
    assert (L : look dec enc md5 now s = mkSt (s_w s) c' true (Looked i (length (data (s_w s) i)) :: s_trace s)).
    { unfold look. rewrite Eh, A, E, Ec. reflexivity. }
    destruct b.
    - destruct (B2 eq_refl) as [Eh' _].
      destruct (read_all now (length (data (s_w s) i)) (look dec enc md5 now s) i (place c') V1 (look_active _ _ A)) as (n & _ & _ & _ & R & _); [now rewrite L|rewrite L; cbn [s_w]; lia|].
      exists (S n). cbn [repeat run step].
      destruct (repeat_run now n _ V1 (look_active _ now A)) as (_ & _ & W). rewrite W, look_world in R. exact R.
    - destruct (B1 eq_refl) as [_ Le].
      exists 1. cbn [repeat run step]. 
      destruct (v_pos _ V1) as (m & Em & P). rewrite L in *. cbn [s_c s_w s_trace] in *. rewrite Ei in *.
      exists m. split; [exact P|]. unfold rest. rewrite <- skipn_add, <- Em, skipn_all2 by assumption.
      destruct (next []) as [[l n]|] eqn:N; [|reflexivity]. apply next_len in N. cbn in N. lia. }
  intros s i V A Ec. destruct (c_h (s_c s)) as [[j p]|] eqn:Eh; [|eauto].
  destruct (read_all now _ s j p V A Eh (Nat.le_refl _)) as (n & _ & _ & Eh' & _ & _).
  destruct (repeat_run now n _ V A) as (V' & A' & W').
  destruct (C _ i V' A') as (n' & R); [now rewrite W'|assumption|].
  exists (n + n'). rewrite repeat_app, run_app. now rewrite W' in R.
Qed.

(** at the bottom of a file all its lines have been taken *)
Lemma bottom_all : forall s now i sz, Inv s -> s_trace (look dec enc md5 now s) = Bottom i sz :: s_trace s ->
  all_read (s_w s) i (s_trace s) /\ sz = length (data (s_w s) i).
Proof.
  intros s now i sz V H. unfold look in H. destruct (c_h (s_c s)) as [[j p]|] eqn:Eh.
  - destruct (inv_read _ _ _ V Eh) as (m & Em & P & Ec & X).
    destruct (next (skipn p (data (s_w s) j))) as [[l n]|] eqn:N.
    + destruct X as [X _]. rewrite X in H. destruct (s_active s); discriminate.
    + rewrite X in H. destruct (s_active s); cbn [s_trace] in H.
      * unfold add in H. injection H as -> <-. split; [|reflexivity]. exists m. split; [exact P|]. unfold rest. now rewrite <- skipn_add, <- Em.
      * apply (f_equal (@length event)) in H. cbn in H. lia.
  - destruct (s_active s); cbn [negb] in H.
    + destruct (open md5 now (s_w s) (s_c s)) as [c o]. cbn [s_trace] in H.
      destruct o, (w_cur (s_w s)); try discriminate; apply (f_equal (@length event)) in H; cbn in H; lia.
    + apply (f_equal (@length event)) in H. cbn in H. lia.
Qed.
End Inv.
Lemma inv_init : forall tl i0 d0 now, good (skipn (base tl i0 d0 i0) d0) -> (base tl i0 d0 i0 <> 0 -> In LF d0) -> Inv (base tl i0 d0) (init md5 tl now i0 d0).
Proof.
  intros tl i0 d0 now G T. unfold init.
  assert (Dd : forall i, data (mkWorld [(i0, d0)] (Some i0)) i = if i =? i0 then d0 else []).
  { intros i. unfold data. cbn [w_files dget]. change (eqb i i0) with (i =? i0). now destruct (i =? i0). }
  assert (D0 : data (mkWorld [(i0, d0)] (Some i0)) i0 = d0) by now rewrite Dd, Nat.eqb_refl.
  assert (W : ends_line (raw_line d0) = true -> In LF d0).
  { intros H. destruct (Nat.eq_dec (base tl i0 d0 i0) 0) as [E|N]; [|auto]. apply good_cr; [|assumption]. now rewrite E in G. }
  assert (CH : c_hash (create md5 tl now i0 d0) = first_hash md5 d0).
  { unfold create. destruct d0; [|reflexivity]. reflexivity. }
  assert (CI : c_ino (create md5 tl now i0 d0) = i0) by reflexivity.
  assert (M : dmem i0 [(i0, d0)] = true). { unfold dmem. cbn. unfold eqb. cbn. now rewrite Nat.eqb_refl. }
  constructor; cbn [s_w s_c s_trace w_files w_cur]; rewrite ?CI, ?CH, ?D0; auto.
  - intros i. exists 0. constructor.
  - intros i. unfold rest. rewrite Dd. destruct (Nat.eqb_spec i i0) as [->|N]; [exact G|]. now rewrite skipn_nil.
  - exists 0. split; [|constructor]. unfold place, create, base. cbn. rewrite Nat.eqb_refl. destruct tl; cbn; lia.
  - intros i. rewrite Dd. unfold base. destruct (Nat.eqb_spec i i0) as [->|N]; destruct tl; cbn; lia.
  - discriminate.
  - destruct (String.string_dec (first_hash md5 d0) ""%string) as [X|X]; [now left|right]. split; [reflexivity|]. now apply first_hash_in.
  - exists (length d0). split; [reflexivity|]. split; [lia|]. rewrite firstn_all. apply first_hash_some.
  - intros i E. injection E as <-. split; [exact M|]. intros X. now destruct X.
  - intros i B. destruct (Nat.eq_dec i i0) as [->|N]; [rewrite D0; auto|]. unfold base in B. apply Nat.eqb_neq in N. rewrite N, andb_false_r in B. now destruct B.
Qed.


(** ** what was read before makes no difference *)
Definition graft (s : st) (tr : list event) : st := mkSt (s_w s) (s_c s) (s_active s) (s_trace s ++ tr).
Lemma look_graft : forall now s tr, look dec enc md5 now (graft s tr) = graft (look dec enc md5 now s) tr.
Proof.
  intros now s tr. unfold look, graft. cbn [s_w s_c s_active s_trace]. destruct (c_h (s_c s)) as [[i p]|].
  - destruct (readline dec enc (data (s_w s) i) p) as [[l|] p']; destruct (s_active s); reflexivity.
  - destruct (s_active s) eqn:A; cbn [negb]; [|rewrite A; reflexivity]. destruct (open md5 now (s_w s) (s_c s)) as [c o].
    destruct o, (w_cur (s_w s)); reflexivity.
Qed.
Lemma run_graft : forall now n s tr, run dec enc md5 (repeat (Step now) n) (graft s tr) = graft (run dec enc md5 (repeat (Step now) n) s) tr.
Proof. induction n as [|n IH]; intros s tr; [reflexivity|]. cbn [repeat run step]. now rewrite look_graft, IH. Qed.
Lemma taken_app : forall i a b, taken i (a ++ b) = taken i b ++ taken i a.
Proof.
  induction a as [|e a IH]; intros b; [cbn; now rewrite app_nil_r|]. destruct e; cbn; auto; rewrite IH; destruct (_ =? _); rewrite ?app_assoc; reflexivity.
Qed.

(** a file that was overwritten by less than was read of it is read anew *)
Lemma truncated : forall bs s now i d', Inv bs s -> s_active s = true -> c_h (s_c s) = None -> w_cur (s_w s) = Some i ->
  i = c_ino (s_c s) -> c_hash (s_c s) <> ""%string -> length d' < c_pos (s_c s) -> good d' ->
  exists n new, let s' := run dec enc md5 (repeat (Step now) n) (step dec enc md5 s (Truncate i d')) in
    taken i (s_trace s') = taken i (s_trace s) ++ new /\ (exists m, Path d' new m /\ next (skipn m d') = None).
Proof.
  intros bs s now i d' V A Eh Ec Ei Hh Lt G.
  set (w' := mkWorld (dset i d' (w_files (s_w s))) (w_cur (s_w s))).
  assert (Dw : forall j, data w' j = if j =? i then d' else data (s_w s) j).
  { intros j. unfold w'. rewrite data_set. destruct (j =? i); reflexivity. }
  assert (Di : data w' i = d') by now rewrite Dw, Nat.eqb_refl.
  set (c' := mkCont 0 (first_hash md5 d') i (if ends_line (raw_line d') then now + 30 else c_next (s_c s))%Z
        (if length d' <=? 0 then None else Some (i, 0))).
  assert (L : look dec enc md5 now (step dec enc md5 s (Truncate i d')) = graft (mkSt w' c' true [Looked i (length d')]) (s_trace s)).
  { cbn [step]. fold w'. unfold look. cbn [s_c s_active s_w s_trace]. rewrite Eh, A. cbn [negb]. unfold open.
    change (w_cur w') with (w_cur (s_w s)). rewrite Ec, Di.
    apply Nat.ltb_lt in Lt. rewrite Lt. cbn [orb andb]. apply eqb_neq in Hh. rewrite Hh. cbn [negb c_pos]. unfold graft, c'.
    destruct (length d' <=? 0); rewrite ?Eh; reflexivity. }
  set (bs' := fun j => if j =? i then 0 else bs j).
  assert (B0 : bs' i = 0) by (unfold bs'; now rewrite Nat.eqb_refl).
  assert (V' : Inv bs' (mkSt w' c' true [Looked i (length d')])).
  { pose proof V as [Vp Vg Vpos Vb Vf Vh Vhash Vl Vc Vn Vt].
    constructor; cbn [s_w s_c s_trace].
    - intros j. exists 0. constructor.
    - intros j. unfold rest. rewrite Dw. unfold bs'. destruct (Nat.eqb_spec j i); [exact G|apply Vg].
    - exists 0. split; [|constructor]. cbn [c' c_ino]. rewrite B0. unfold place, c'. cbn. now destruct (length d' <=? 0).
    - intros j. rewrite Dw. unfold bs'. destruct (j =? i); [lia|apply Vb].
    - unfold w', c'. cbn. unfold dmem. now rewrite dget_dset_same.
    - intros j q H. unfold c' in *. cbn in *. destruct (length d' <=? 0); congruence.
    - unfold c'. cbn [c_hash c_ino]. rewrite Di. destruct (String.string_dec (first_hash md5 d') ""%string) as [X|X]; [now left|right].
      split; [reflexivity|]. apply first_hash_in; auto.
    - exists (length d'). unfold c'. cbn [c_ino c_hash]. rewrite Di, firstn_all. repeat split; [lia|]. apply first_hash_some.
    - intros j H. unfold w' in H. cbn in H. rewrite Ec in H. injection H as <-. split; [unfold w', dmem; cbn; now rewrite dget_dset_same|].
      intros X. now destruct X.
    - intros j _. reflexivity.
    - intros j. unfold bs'. rewrite Dw. destruct (j =? i); [now intros []|apply Vt]. }
  destruct (length d' <=? 0) eqn:Z.
  - exists 1, []. cbn [repeat run]. change (step dec enc md5 (step dec enc md5 s (Truncate i d')) (Step now)) with (look dec enc md5 now (step dec enc md5 s (Truncate i d'))).
    rewrite L. unfold graft. cbn [s_trace app taken]. rewrite app_nil_r. split; [reflexivity|]. exists 0. split; [constructor|].
    cbn. destruct (next d') as [[l n]|] eqn:N; [|reflexivity]. apply next_len in N. apply Nat.leb_le in Z. lia.
  - destruct (read_all bs' now (length d') _ i 0 V' eq_refl) as (n & _ & _ & _ & R & _).
    { unfold c'. reflexivity. } { cbn [s_w]. rewrite Di. lia. }
    set (s2 := mkSt w' c' true [Looked i (length d')]) in *.
    exists (S n), (taken i (s_trace (run dec enc md5 (repeat (Step now) n) s2))).
    cbn [repeat run]. change (step dec enc md5 (step dec enc md5 s (Truncate i d')) (Step now)) with (look dec enc md5 now (step dec enc md5 s (Truncate i d'))).
    rewrite L, run_graft. unfold graft. cbn [s_trace]. rewrite taken_app. split; [reflexivity|].
    destruct (repeat_run bs' now n _ V' eq_refl) as (_ & _ & W). rewrite W in R. unfold all_read, rest in R. cbn [s_w s2] in R.
    rewrite B0 in R. cbn [skipn] in R. unfold s2 in R. cbn [s_w] in R. rewrite Di in R. exact R.
Qed.
End Generic.

(** ** stopping loses at most one line *)
Section Stop.
Context (dec : bytes -> chars) (enc : chars -> bytes) (md5 : bytes -> string).
Definition due (s : st) : nat := if s_active s then 0 else match c_h (s_c s) with Some _ => 1 | None => 0 end.
Lemma losses_step : forall s o, losses (s_trace (step dec enc md5 s o)) + due (step dec enc md5 s o)
  <= losses (s_trace s) + due s + (match o with Stop => 1 | _ => 0 end).
Proof.
  intros s o. destruct o; unfold due; cbn [step s_active s_c s_trace]; try lia.
  - unfold look. destruct (c_h (s_c s)) as [[i p]|] eqn:Eh.
    + destruct (readline dec enc (data (s_w s) i) p) as [[l|] p']; destruct (s_active s) eqn:A;
        cbn [s_active s_c s_trace c_h add losses]; lia.
    + destruct (s_active s) eqn:A; cbn [negb].
      * destruct (open md5 now (s_w s) (s_c s)) as [c o]. cbn [s_active s_trace]. destruct o, (w_cur (s_w s)); cbn; lia.
      * rewrite A, Eh. lia.
  - destruct (c_h (s_c s)) as [[i p]|], (s_active s); lia.
  - destruct (c_h (s_c s)) as [[i p]|] eqn:Eh; [rewrite Eh; lia|].
    unfold restart. destruct (w_cur (s_w s)); [|rewrite Eh; lia]. cbn [s_active s_trace add losses]. lia.
Qed.
Lemma losses_run : forall ops s, losses (s_trace (run dec enc md5 ops s)) <= losses (s_trace s) + due s + stops ops.
Proof.
  induction ops as [|o ops IH]; intros s; [cbn; lia|]. cbn [run]. etransitivity; [apply IH|].
  pose proof (losses_step s o). destruct o; cbn [stops] in *; lia.
Qed.
Lemma losses_init : forall ops tl now i d, losses (s_trace (run dec enc md5 ops (init md5 tl now i d))) <= stops ops.
Proof. intros. etransitivity; [apply losses_run|]. cbn. lia. Qed.
End Stop.
Lemma no_losses : forall tr, losses tr = 0 -> forall i, delivered i tr = taken i tr.
Proof.
  induction tr as [|e tr IH]; intros H i; [reflexivity|]. destruct e; cbn in *; try discriminate; rewrite ?IH by assumption; auto.
Qed.
