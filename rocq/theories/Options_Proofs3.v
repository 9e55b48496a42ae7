(** Proofs for lists of actions with options. *)
From Verif Require Import Base Text Backtrack Options_Model Options_Spec Options_Proofs.
Require Import ZifyBool ZifyNat.

(** ** Steps of the matcher *)
Lemma many_step f R a b k x : Forall (fun c => f c = true) a -> stops f b -> k b = Some x -> many f R (a ++ b) k = Some x.
Proof. intros F St H. apply many_run. now rewrite run_app. Qed.
Lemma many_stop f R b k x : stops f b -> k b = Some x -> many f R b k = Some x.
Proof. intros St H. apply (many_step f R [] b k x); auto. Qed.
Lemma many1_step f R a b k x : a <> [] -> Forall (fun c => f c = true) a -> stops f b -> k b = Some x -> many1 f R (a ++ b) k = Some x.
Proof.
  intros N F St H. destruct a as [|c a]; [congruence|]. apply Forall_cons_iff in F as [Hc F]. unfold many1, cat, chr. cbn [app]. rewrite Hc. now apply many_step.
Qed.
Lemma lit_step c R r k : lit c R (c :: r) k = k r.
Proof. unfold lit, chr. now rewrite eqb_refl. Qed.
Lemma lit_other c d R r k : c <> d -> lit c R (d :: r) k = None.
Proof. unfold lit, chr. destruct (eqb_spec c d); congruence. Qed.

Definition unopened (s : text) : Prop := match snd (run is_space s) with c :: _ => c <> opening | [] => True end.
Lemma space_not_opening c : is_space c = true -> opening <> c.
Proof. intros H <-. discriminate. Qed.
Lemma no_opening (x : rx) R s k : unopened s -> (many is_space ;; lit opening ;; x) R s k = None.
Proof.
  unfold unopened, cat at 1. induction s as [|c s IH]; intros H; [reflexivity|]. cbn [many run] in *. destruct (is_space c) eqn:E.
  - destruct (run is_space s) as [a b]. cbn [snd] in *. rewrite IH by exact H. unfold cat. apply lit_other. now apply space_not_opening.
  - cbn [snd] in H. unfold cat. apply lit_other. congruence.
Qed.
Lemma no_opening' R s k : unopened s -> (many is_space ;; lit opening) R s k = None.
Proof. intros H. exact (no_opening eps R s k H). Qed.

(** ** The options *)
Lemma oname_stops c r : is_oname c = false -> stops is_oname (c :: r).
Proof. exact (fun H => H). Qed.
Lemma body_closing R r k : split_body R (closing :: r) k = None.
Proof. reflexivity. Qed.
Lemma rep_closing N R r k : rep N split_body R (closing :: r) k = k (closing :: r).
Proof. destruct N; [reflexivity|]. cbn [rep]. unfold opt, alt, cat at 1. rewrite body_closing. reflexivity. Qed.

Lemma value_step R x v tl k y : plain_value x v -> stops (but [comma; closing]) tl -> k tl = Some y -> split_value R (x ++ tl) k = Some y.
Proof.
  assert (Q : forall q v R k y, ~ In q v -> k tl = Some y -> (lit q ;; many (but [q]) ;; lit q) R (([q] ++ v ++ [q]) ++ tl) k = Some y).
  { intros q v' R' k' y' H Hk. unfold cat. cbn [app]. rewrite lit_step. rewrite <- app_assoc. apply many_step.
    - now apply but1_all.
    - cbn. unfold but. cbn. now rewrite eqb_refl.
    - cbn [app]. now rewrite lit_step. }
  intros V St H. unfold split_value, alt. destruct V as [v D|v D|v C D F].
  - change dq with dquote in *. now rewrite (Q dquote v R k y).
  - change sq with squote in *. rewrite (Q squote v R k y) by auto. unfold cat at 1. cbn [app]. rewrite lit_other by discriminate. reflexivity.
  - assert (Fa : forall c t, v ++ tl = c :: t -> c <> dquote /\ c <> squote).
    { intros c t E. destruct v as [|d v]; cbn in E.
      - subst tl. apply but2_stops in St as [-> | ->]; split; discriminate.
      - injection E as <- <-. exact (F _ _ eq_refl). }
    assert (M : many (but [comma; closing]) R (v ++ tl) k = Some y) by (apply many_step; auto; now apply but2_all).
    rewrite M. unfold cat. destruct (v ++ tl) as [|c t]; [reflexivity|]. destruct (Fa _ _ eq_refl). rewrite !lit_other by congruence. reflexivity.
Qed.
Lemma oname_run n : option_name n -> n <> [] /\ Forall (fun c => is_oname c = true) n.
Proof. intros [N F]. split; [exact N|]. eapply Forall_impl; [|exact F]. intros c. apply name_oname. Qed.
Lemma list_head o l tl : option_list o l -> stops is_space (o ++ tl).
Proof.
  assert (K : forall n r, option_name n -> stops is_space (n ++ r)).
  { intros n r O. apply oname_run in O as [N F]. destruct n as [|c n]; [congruence|]. apply Forall_cons_iff in F as [H _]. cbn. now apply oname_not_space. }
  destruct 1; rewrite <- !app_assoc; now apply K.
Qed.
Lemma rep_step o l tl R y : option_list o l -> unopened tl -> forall N k, (length o <= N)%nat -> k (closing :: tl) = Some y ->
  rep N split_body R (o ++ closing :: tl) k = Some y.
Proof.
  intros O U. induction O as [n x v On V|n x v sep w rest l On V Sp W O IH]; intros N k LN H; apply oname_run in On as [Nn Fn];
    (destruct N as [|N]; [exfalso; rewrite app_length in LN; destruct n; [congruence|]; cbn in LN; lia|]); cbn [rep]; unfold opt at 1, alt at 1, cat at 1.
  - rewrite <- !app_assoc. unfold split_body at 1, cat at 1. erewrite many1_step; [reflexivity|auto|auto|reflexivity|].
    unfold cat at 1. cbn [app]. rewrite lit_step. unfold cat at 1. apply (value_step R x v); [exact V|reflexivity|].
    unfold cat at 1. apply many_stop; [reflexivity|]. unfold cat at 1, opt, alt, cat at 1. rewrite lit_other by discriminate.
    rewrite lit_step. rewrite no_opening' by exact U. unfold eps. apply many_stop; [reflexivity|]. now rewrite rep_closing.
  - rewrite <- !app_assoc. unfold split_body at 1, cat at 1. erewrite many1_step; [reflexivity|auto|auto|reflexivity|].
    unfold cat at 1. cbn [app]. rewrite lit_step. unfold cat at 1. apply (value_step R x v); [exact V|now destruct Sp|].
    assert (Last : many is_space R (w ++ rest ++ closing :: tl) (fun r => rep N split_body R r k) = Some y).
    { apply many_step; [now apply blanks_run|now apply (list_head rest l)|]. apply IH; [|exact H]. rewrite !app_length in LN. cbn in LN. lia. }
    unfold cat at 1. destruct Sp as [|w0 W0].
    + cbn [app]. apply many_stop; [reflexivity|]. unfold cat at 1, opt, alt. change ","%char with comma. rewrite lit_step. rewrite Last. reflexivity.
    + rewrite <- !app_assoc. cbn [app]. apply many_stop; [reflexivity|]. unfold cat at 1, opt, alt. rewrite lit_other by discriminate.
      unfold cat at 1. change "]"%char with closing. rewrite lit_step. unfold cat at 1.
      rewrite (many_step is_space R w0 _ _ y); [reflexivity|now apply blanks_run|reflexivity|]. change "["%char with opening. rewrite lit_step. exact Last.
Qed.

(** ** What follows an action *)
Definition apart (s : text) : Prop := match s with [] => True | c :: _ => blank c end.
Lemma follow_ok R s k : apart s -> ahead split_follow R s k = k s.
Proof.
  intros A. unfold ahead. assert (E : split_follow unit s (fun _ => Some tt) <> None).
  { unfold split_follow, alt. destruct s as [|c s]; [discriminate|]. cbn in A. apply blank_space in A.
    destruct ((lit newline ;; many is_space) unit (c :: s) _); [discriminate|]. unfold many1, cat, chr. rewrite A.
    rewrite (many_total is_space unit s (fun _ => Some tt)) by discriminate. discriminate. }
  match goal with |- match ?x with _ => _ end = _ => destruct x eqn:Ex end; [reflexivity|]. now contradict E.
Qed.
Lemma follow_no R c s k : is_space c = false -> ahead split_follow R (c :: s) k = None.
Proof.
  intros H. unfold ahead, split_follow, alt, cat, many1, cat, chr. rewrite H. assert (N : newline <> c) by (intros <-; discriminate).
  rewrite lit_other by exact N. unfold eos. destruct s; [|reflexivity]. destruct (eqb_spec c newline); [congruence|reflexivity].
Qed.
Lemma tail_step s : apart s -> exists u r, s = u ++ r /\ blanks u /\ apart r /\ many is_space text s (fun r => ahead split_follow text r Some) = Some r.
Proof.
  induction s as [|c s IH]; intros A.
  - exists [], []. repeat split; constructor.
  - cbn in A. cbn [many]. pose proof (proj1 (blank_space c) A) as E. rewrite E. destruct s as [|d s].
    + destruct (IH I) as (u & r & Es & Bu & Ar & M). rewrite M. exists (c :: u), r. rewrite Es. repeat split; auto. now constructor.
    + destruct (is_space d) eqn:Ed.
      * destruct (IH (proj2 (blank_space d) Ed)) as (u & r & Es & Bu & Ar & M). rewrite M. exists (c :: u), r. rewrite Es. repeat split; auto. now constructor.
      * exists [], (c :: d :: s). cbn [many]. rewrite Ed, follow_no by exact Ed. repeat split; auto; [constructor|]. apply follow_ok. exact A.
Qed.

Lemma name_run n : action_name n -> n <> [] /\ Forall (fun c => split_name c = true) n.
Proof.
  intros [N F]. split; [exact N|]. eapply Forall_impl; [|exact F]. cbn beta. intros c [B O]. unfold split_name. apply andb_true_iff. split.
  - apply but_true. intros [<-|[]]. now apply O.
  - rewrite blank_space in B. destruct (is_space c); [now contradict B|reflexivity].
Qed.
Lemma apart_stops s : apart s -> stops split_name s.
Proof. destruct s as [|c s]; cbn; [auto|]. intros A. apply blank_space in A. unfold split_name. rewrite A. apply andb_false_r. Qed.

Lemma split_step a n l rest : action_text a n l -> apart rest -> unopened rest ->
  exists u r, rest = u ++ r /\ blanks u /\ apart r /\ split_cre text (a ++ rest) Some = Some r.
Proof.
  intros A Ap U. destruct (tail_step rest Ap) as (u & r & Er & Bu & Ar & M). exists u, r. split; [exact Er|]. split; [exact Bu|]. split; [exact Ar|].
  unfold split_cre, cat at 1, alt. unfold cat at 1. destruct A as [n N|n w o l N W O]; apply name_run in N as [Nn Fn].
  - erewrite many1_step; [reflexivity|exact Nn|exact Fn|now apply apart_stops|].
    unfold cat at 1, opt, alt. unfold split_group. rewrite no_opening by exact U. exact M.
  - rewrite <- !app_assoc. erewrite many1_step; [reflexivity|exact Nn|exact Fn|reflexivity|].
    unfold cat at 1, opt, alt. unfold split_group at 1, cat at 1. cbn [app]. erewrite many_stop; [reflexivity|reflexivity|].
    unfold cat at 1. change "["%char with opening. rewrite lit_step. unfold cat at 1. apply many_step; [now apply blanks_run|now apply (list_head o l)|].
    unfold cat at 1, star. apply (rep_step o l rest); [exact O|exact U|rewrite app_length; lia|]. rewrite lit_step. exact M.
Qed.

(** ** The whole list *)
Lemma action_head a n l : action_text a n l -> exists c t, a = c :: t /\ ~ blank c /\ c <> opening.
Proof.
  destruct 1 as [n [N F]|n w o l [N F] _ _]; (destruct n as [|c n]; [congruence|]); apply Forall_cons_iff in F as [[B O] _]; cbn [app]; eauto.
Qed.
Lemma actions_tail c s L : blank c -> actions_text (c :: s) L -> actions_text s L.
Proof.
  intros B H. inversion H as [w W E E'|w a n l rest L' W A Ap R E E'].
  - subst. apply AS_none. now inversion W.
  - destruct w as [|d w]; cbn in E.
    + destruct (action_head _ _ _ A) as (d & t & -> & ND & _). cbn in E. congruence.
    + injection E as -> <-. apply Forall_cons_iff in W as [_ W]. now constructor.
Qed.
Lemma actions_skip u s L : blanks u -> actions_text (u ++ s) L -> actions_text s L.
Proof. induction 1 as [|c u B _ IH]; [auto|]. cbn [app]. intros H. apply IH. now apply (actions_tail c). Qed.
Lemma actions_unopened s L : actions_text s L -> unopened s.
Proof.
  intros H. unfold unopened. destruct H as [w W|w a n l rest L W A Ap R].
  - apply blanks_run in W. rewrite <- (app_nil_r w), (run_app is_space w []); cbn; auto.
  - apply blanks_run in W. destruct (action_head _ _ _ A) as (c & t & -> & ND & NO). rewrite (run_app is_space w); [exact NO|exact W|].
    cbn. rewrite blank_space in ND. now destruct (is_space c).
Qed.
Lemma space_no_match c s k : is_space c = true -> split_cre text (c :: s) k = None.
Proof.
  intros E. unfold split_cre, cat at 1, alt. unfold cat at 1, many1, cat, chr. unfold split_name. rewrite E, andb_false_r. reflexivity.
Qed.
Definition item_of (nl : text * list (text * text)) (t : text) : Prop := exists a w, t = a ++ w /\ blanks w /\ action_text a (fst nl) (snd nl).
Lemma find_all_ok : forall fuel s L, (length s < fuel)%nat -> actions_text s L -> Forall2 item_of L (find_all fuel s).
Proof.
  induction fuel as [|fuel IH]; intros s L LN H; [lia|]. cbn [find_all]. destruct s as [|c s].
  - inversion H as [|w a n l rest L' W A Ap R E]; [constructor|]. destruct (action_head _ _ _ A) as (d & t & -> & _). destruct w; discriminate.
  - cbn in LN. destruct (is_space c) eqn:Ec.
    + rewrite space_no_match by exact Ec. apply IH; [lia|]. apply (actions_tail c); [now apply blank_space|exact H].
    + inversion H as [w W E E'|w a n l rest L' W A Ap R E E'].
      * subst. apply blanks_run in W. apply Forall_cons_iff in W as [W _]. congruence.
      * destruct w as [|d w]; [|exfalso; cbn in E; injection E as -> _; apply blanks_run in W; apply Forall_cons_iff in W as [W _]; congruence].
        change ([] ++ a ++ rest) with (a ++ rest) in *. destruct (split_step a n l rest A Ap (actions_unopened _ _ R)) as (u & r & Er & Bu & Ar & M). rewrite M.
        constructor.
        -- exists a, u. split; [|split; [exact Bu|exact A]]. rewrite Er, app_assoc. apply taken_app.
        -- apply IH.
           ++ apply (f_equal (@length _)) in E, Er. rewrite app_length in E, Er. cbn in E. destruct (action_head _ _ _ A) as (d & t & -> & _). cbn in E. lia.
           ++ rewrite Er in R. now apply (actions_skip u).
Qed.

Lemma plain_value_text x v rest : plain_value x v -> value_text rest x v.
Proof.
  destruct 1 as [v D|v D|v C D F]; [now constructor|now constructor|]. constructor; [exact C|exact D|]. intros q v' E Q. apply F in E as [E1 E2]. tauto.
Qed.
Lemma list_options o l : option_list o l -> forall w, blanks w -> options_text (w ++ o) l.
Proof.
  induction 1 as [n x v On V|n x v sep w0 rest l On V Sp W O IH]; intros w Bw.
  - apply OT_last; auto. now apply plain_value_text.
  - apply OT_next; auto. now apply plain_value_text.
Qed.
Lemma action_full a n l : action_text a n l -> full_text a n l.
Proof.
  assert (K : forall m, action_name m -> m <> [] /\ ~ In "["%char m).
  { intros m [N F]. split; [exact N|]. intros I. rewrite Forall_forall in F. now apply F in I as [_ I]. }
  destruct 1 as [n N|n w o l N W O]; apply K in N as [N1 N2].
  - now constructor.
  - pose proof (F_options n (w ++ o) [] l N1 N2 (Forall_nil _) (list_options o l O w W)) as H. rewrite app_nil_r, <- !app_assoc in H. exact H.
Qed.
Lemma lstrip_blanks w s : blanks w -> lstrip (w ++ s) = lstrip s.
Proof. intros W. apply blanks_run in W. induction W as [|c w H _ IH]; [reflexivity|]. cbn. now rewrite H. Qed.
Lemma lstrip_stops s : stops is_space s -> lstrip s = s.
Proof. destruct s as [|c s]; [reflexivity|]. cbn. now intros ->. Qed.
Lemma action_last a n l : action_text a n l -> stops is_space (rev a).
Proof.
  destruct 1 as [n [N F]|n w o l N W O].
  - assert (G : Forall (fun c => ~ blank c) (rev n)) by (apply Forall_rev; eapply Forall_impl; [|exact F]; cbn; tauto).
    destruct (rev n) as [|c t]; [exact I|]. apply Forall_cons_iff in G as [G _]. cbn. rewrite blank_space in G. now destruct (is_space c).
  - rewrite !app_assoc, rev_app_distr. reflexivity.
Qed.
Lemma strip_action a n l w : action_text a n l -> blanks w -> strip (a ++ w) = a.
Proof.
  intros A W. unfold strip. rewrite (lstrip_stops (a ++ w)).
  - rewrite rev_app_distr, lstrip_blanks by (now apply Forall_rev). rewrite lstrip_stops by (now apply (action_last a n l)). apply rev_involutive.
  - destruct (action_head _ _ _ A) as (c & t & -> & B & _). cbn. rewrite blank_space in B. now destruct (is_space c).
Qed.
Theorem actions_ok s L : actions_text s L ->
  read_actions (split_with_options s) = Some (map (fun nl => (fst nl, fold_left put (snd nl) [])) L).
Proof.
  intros H. unfold split_with_options. pose proof (find_all_ok (S (length s)) s L ltac:(lia) H) as F. clear H.
  induction F as [|[n l] t L ts (a & w & -> & W & A) _ IH]; [reflexivity|]. cbn [read_actions fst snd map] in *.
  rewrite (strip_action a n l w A W). destruct (action_head _ _ _ A) as (c & r & Ea & _). rewrite Ea at 1. cbn [nonempty].
  assert (X : extract_options a = Some (n, fold_left put l [])). { apply extract_exact. exists l. split; [now apply action_full|reflexivity]. }
  now rewrite X, IH.
Qed.
Lemma actions_names s L : actions_text s L -> Forall (fun nl => Forall (fun nv => option_name (fst nv)) (snd nl)) L.
Proof. induction 1; constructor; auto. cbn [snd]. eapply full_names, action_full; eauto. Qed.
