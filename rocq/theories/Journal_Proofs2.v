From Coq Require Import ZArith List Bool Lia ZifyBool.
From Verif Require Import Base Text Journal_Model Journal_Spec Journal_Proofs.
Import ListNotations.
Local Open Scope Z_scope.

(** ** The order of the journal *)
Lemma ordered_app a e c : ordered (a ++ e :: c) ->
  ordered c /\ (forall f, In f a -> e_key f < e_key e /\ e_real f <= e_real e) /\ (forall f, In f c -> e_key e < e_key f /\ e_real e <= e_real f).
Proof.
  induction a as [|x a IH]; cbn [app ordered]; intros (H & O).
  - split; [exact O|]. split; [intros f []|exact H].
  - destruct (IH O) as (O1 & A & C). split; [exact O1|]. split; [|exact C]. intros f [<-|Hf]; [|auto]. apply H. apply in_app_iff. right. now left.
Qed.
Lemma ordered_snoc j e : ordered j -> (forall f, In f j -> e_key f < e_key e /\ e_real f <= e_real e) -> ordered (j ++ [e]).
Proof.
  induction j as [|x j IH]; cbn [app ordered]; intros O H; [split; [intros f []|exact I]|].
  destruct O as (O1 & O2). split.
  - intros f Hf. apply in_app_iff in Hf. destruct Hf as [Hf|[<-|[]]]; [auto|]. apply H. now left.
  - apply IH; [exact O2|]. intros f Hf. apply H. now right.
Qed.
Lemma ordered_filter p j : ordered j -> ordered (filter p j).
Proof.
  induction j as [|x j IH]; cbn [filter ordered]; [auto|]. intros (O1 & O2). destruct (p x); [|auto]. cbn [ordered]. split; [|auto].
  intros f Hf. apply filter_In in Hf. apply O1, Hf.
Qed.
Lemma ordered_key j e f : ordered j -> In e j -> In f j -> e_key e = e_key f -> e = f.
Proof.
  intros O He Hf E. destruct (in_split e j He) as (a & c & ->). destruct (ordered_app _ _ _ O) as (_ & A & C).
  apply in_app_iff in Hf. destruct Hf as [Hf|[Hf|Hf]]; [specialize (A f Hf); lia|exact Hf|specialize (C f Hf); lia].
Qed.
Lemma ordered_real j e f : ordered j -> In e j -> In f j -> e_key e <= e_key f -> e_real e <= e_real f.
Proof.
  intros O He Hf E. destruct (in_split e j He) as (a & c & ->). destruct (ordered_app _ _ _ O) as (_ & A & C).
  apply in_app_iff in Hf. destruct Hf as [Hf|[Hf|Hf]]; [specialize (A f Hf); lia|subst; lia|specialize (C f Hf); lia].
Qed.

Lemma find_split {A} (p : A -> bool) l e : find p l = Some e -> exists a c, l = a ++ e :: c /\ p e = true /\ forall x, In x a -> p x = false.
Proof.
  induction l as [|x l IH]; cbn [find]; [discriminate|]. destruct (p x) eqn:E.
  - intros H. injection H as <-. exists [], l. split; [reflexivity|]. split; [exact E|intros y []].
  - intros H. destruct (IH H) as (a & c & -> & P & Q). exists (x :: a), c. split; [reflexivity|]. split; [exact P|]. intros y [<-|Hy]; auto.
Qed.
Lemma filter_none {A} (p : A -> bool) l : (forall x, In x l -> p x = false) -> filter p l = [].
Proof. induction l as [|x l IH]; intros H; [reflexivity|]. cbn [filter]. rewrite (H x) by now left. apply IH. intros y Hy. apply H. now right. Qed.
Lemma after_up l j e f : ordered j -> In e j -> In f j -> e_key e <= e_key f -> after l e = true -> after l f = true.
Proof.
  intros O He Hf K. pose proof (ordered_real j e f O He Hf K). destruct l; cbn [after]; lia.
Qed.

(** ** get_next *)
Definition later (sl : entry -> bool) (l : location) (j : list entry) : list entry := filter (fun e => sl e && after l e) j.
Lemma get_next_none sl j l l' : get_next sl j l = (None, l') -> l' = l /\ later sl l j = [].
Proof.
  unfold get_next. destruct (find _ j) eqn:F; [discriminate|]. intros E. injection E as <-. split; [reflexivity|].
  apply filter_none. intros x Hx. apply (find_none _ _ F x Hx).
Qed.
Lemma get_next_some sl j l e l' : ordered j -> get_next sl j l = (Some e, l') ->
  l' = LAt (e_key e) /\ In e j /\ sl e = true /\ after l e = true /\ later sl l j = e :: later sl l' j.
Proof.
  intros O. unfold get_next. destruct (find _ j) as [e0|] eqn:F; [|discriminate]. intros E. injection E as <- <-.
  destruct (find_split _ _ _ F) as (a & c & -> & P & Q). apply andb_true_iff in P. destruct P as (P1 & P2).
  destruct (ordered_app _ _ _ O) as (_ & A & C).
  split; [reflexivity|]. split; [apply in_app_iff; right; now left|]. split; [exact P1|]. split; [exact P2|].
  unfold later. rewrite !filter_app. cbn [filter]. rewrite (filter_none _ a Q). rewrite P1, P2. cbn [andb app].
  rewrite (filter_none _ a). 2:{ intros x Hx. cbn [after]. specialize (A x Hx). destruct (sl x); [cbn [andb]; lia|reflexivity]. }
  cbn [after]. rewrite Z.ltb_irrefl, ?andb_false_r. cbn [andb]. cbn [app]. f_equal.
  apply filter_ext_in. intros x Hx. f_equal. specialize (C x Hx).
  assert (after l x = true) as ->; [|lia].
  apply (after_up l (a ++ e0 :: c) e0 x O); [apply in_app_iff; right; now left|apply in_app_iff; right; now right|lia|exact P2].
Qed.
(** ** get_previous *)
Lemma get_previous_none sl j l l' : get_previous sl j l = (None, l') -> l' = l /\ forall e, In e j -> sl e = true -> before l e = false.
Proof.
  unfold get_previous. destruct (find _ (rev j)) eqn:F; [discriminate|]. intros E. injection E as <-. split; [reflexivity|].
  intros e He Hs. pose proof (find_none _ _ F e (proj1 (in_rev _ _) He)) as Q. cbv beta in Q. rewrite Hs in Q. exact Q.
Qed.
Lemma get_previous_some sl j l e l' : ordered j -> get_previous sl j l = (Some e, l') ->
  l' = LAt (e_key e) /\ In e j /\ sl e = true /\ before l e = true /\ forall f, In f j -> sl f = true -> before l f = true -> e_key f <= e_key e.
Proof.
  intros O. unfold get_previous. destruct (find _ (rev j)) as [e0|] eqn:F; [|discriminate]. intros E. injection E as <- <-.
  destruct (find_split _ _ _ F) as (a & c & E & P & Q). apply andb_true_iff in P. destruct P as (P1 & P2).
  assert (j = rev c ++ e0 :: rev a) as Ej.
  { rewrite <- (rev_involutive j), E, rev_app_distr. cbn [rev]. rewrite <- app_assoc. reflexivity. }
  subst j. destruct (ordered_app _ _ _ O) as (_ & A & C).
  split; [reflexivity|]. split; [apply in_app_iff; right; now left|]. split; [exact P1|]. split; [exact P2|].
  intros f Hf Sf Bf. apply in_app_iff in Hf. destruct Hf as [Hf|[<-|Hf]]; [specialize (A f Hf); lia|lia|].
  apply in_rev in Hf. specialize (Q f Hf). cbv beta in Q. rewrite Sf, Bf in Q. discriminate Q.
Qed.

(** the start: after seeking and going back, what is unread is what is later than the time *)
Lemma seek_later sl j t : ordered j ->
  later sl (snd (get_previous sl j (LSeek t))) j = filter (fun e => sl e && (t <? e_real e)) j.
Proof.
  intros O. destruct (get_previous sl j (LSeek t)) as ([p|], l) eqn:G; cbn [snd].
  - destruct (get_previous_some _ _ _ _ _ O G) as (-> & Hp & Sp & Bp & M). apply filter_ext_in. intros e He. cbn [after].
    destruct (sl e) eqn:Se; [|reflexivity]. cbn [andb]. cbn [before] in Bp.
    destruct (Z.ltb_spec (e_key p) (e_key e)) as [L|L].
    + symmetry. apply Z.ltb_lt. specialize (M e He Se). cbn [before] in M. lia.
    + pose proof (ordered_real j e p O He Hp L). symmetry. apply Z.ltb_ge. lia.
  - destruct (get_previous_none _ _ _ _ G) as (-> & N). apply filter_ext_in. intros e He. cbn [after].
    destruct (sl e) eqn:Se; [|reflexivity]. cbn [andb]. specialize (N e He Se). cbn [before] in N. lia.
Qed.

(** ** back and forth *)
Definition bf_loc (sl : entry -> bool) (j : list entry) (l : location) : location :=
  match get_previous sl j l with
  | (Some _, l') => snd (get_next sl j l')
  | (None, l') => l'
  end.
Lemma bf_subset sl j l f : ordered j -> l <> LTail -> In f (later sl (bf_loc sl j l) j) -> In f (later sl l j).
Proof.
  intros O NT. unfold bf_loc. destruct (get_previous sl j l) as ([p|], l1) eqn:G.
  - destruct (get_previous_some _ _ _ _ _ O G) as (-> & Hp & Sp & Bp & M).
    destruct (get_next sl j (LAt (e_key p))) as ([n|], l2) eqn:N; cbn [snd].
    + destruct (get_next_some _ _ _ _ _ O N) as (-> & Hn & Sn & An & _). unfold later. rewrite !filter_In. intros (Hf & E). split; [exact Hf|].
      apply andb_true_iff in E. destruct E as (Sf & Af). rewrite Sf. cbn [andb]. cbn [after] in *. 
      specialize (M n Hn Sn). destruct l as [|t|k]; cbn [before after] in *; [congruence| |lia].
      pose proof (ordered_real j n f O Hn Hf ltac:(lia)). lia.
    + destruct (get_next_none _ _ _ _ N) as (-> & E). rewrite E. intros [].
  - destruct (get_previous_none _ _ _ _ G) as (-> & _). auto.
Qed.
Lemma bf_settled sl j l : ordered j ->
  match l with
  | LTail => False
  | LSeek t => forall e, In e j -> sl e = true -> t < e_real e
  | LAt k => (exists e, In e j /\ e_key e = k /\ sl e = true) \/ (forall e, In e j -> sl e = true -> k <= e_key e)
  end -> bf_loc sl j l = l.
Proof.
  intros O H. unfold bf_loc. destruct (get_previous sl j l) as ([p|], l1) eqn:G.
  - destruct (get_previous_some _ _ _ _ _ O G) as (-> & Hp & Sp & Bp & M). destruct l as [|t|k]; [destruct H| |].
    + specialize (H p Hp Sp). cbn [before] in Bp. lia.
    + destruct H as [(e & He & Ek & Se)|H]; [|specialize (H p Hp Sp); cbn [before] in Bp; lia].
      destruct (get_next sl j (LAt (e_key p))) as ([n|], l2) eqn:N; cbn [snd].
      * destruct (get_next_some _ _ _ _ _ O N) as (-> & Hn & Sn & An & L). cbn [before after] in *.
        specialize (M n Hn Sn). assert (In e (later sl (LAt (e_key p)) j)) as Q by (apply filter_In; split; [exact He|]; rewrite Se; cbn [after andb]; lia).
        rewrite L in Q. destruct Q as [->|Q]; [now rewrite Ek|]. apply filter_In in Q. destruct Q as (_ & Q). rewrite Se in Q. cbn [after andb] in Q. f_equal. lia.
      * destruct (get_next_none _ _ _ _ N) as (-> & E).
        assert (In e (later sl (LAt (e_key p)) j)) as Q by (apply filter_In; split; [exact He|]; rewrite Se; cbn [after andb before] in *; lia).
        rewrite E in Q. destruct Q.
  - destruct (get_previous_none _ _ _ _ G) as (-> & _). reflexivity.
Qed.

(** ** One step of the thread *)
Section T.
Variables (valid : text -> bool) (has_db : bool) (findtime : Z).
Notation thread := (thread has_db findtime).
Notation step := (step valid has_db findtime).
Notation run := (run valid has_db findtime).

Definition same_env (s s' : st) : Prop :=
  s_journal s' = s_journal s /\ s_seq s' = s_seq s /\ s_now s' = s_now s /\ s_reader s' = s_reader s /\ s_matches s' = s_matches s /\ s_active s' = s_active s.

Lemma back_and_forth_loc s : s_loc (back_and_forth s) = bf_loc (sel s) (s_journal s) (s_loc s).
Proof. unfold back_and_forth, bf_loc, sel. destruct (get_previous _ _ _) as ([p|], l); reflexivity. Qed.

Inductive tstep (w : wcode) (s s' : st) : Prop :=
| TRead e x rest : unread s = e :: rest -> In e (s_journal s) -> sel s e = true -> s_loc s' = LAt (e_key e) -> unread s' = rest -> s_read s' = s_read s ++ [(e, x)] -> s_pc s = PRead -> tstep w s s'
| TBack : s_loc s' = s_loc (back_and_forth s) -> s_read s' = s_read s -> w = INVALIDATE -> tstep w s s'
| TSame : s_loc s' = s_loc s -> s_read s' = s_read s -> tstep w s s'.

Lemma switch_mode_eq e s : exists b m, switch_mode e s = set_mode b m s.
Proof.
  assert (s = set_mode (s_inop s) (s_mark s) s) as E by (destruct s; reflexivity).
  unfold switch_mode. destruct (s_inop s) eqn:Ei; [exists true, (s_mark s); exact E|].
  destruct (_ <=? _); [eauto|]. destruct (s_mark s) eqn:Em; match goal with |- context [if ?x then _ else _] => destruct x end; eauto;
    exists false; eexists; exact E.
Qed.
Lemma thread_step w err bad s : looping s -> ordered (s_journal s) -> same_env s (thread w err bad s) /\ looping (thread w err bad s) /\ tstep w s (thread w err bad s).
Proof.
  intros L O. unfold Journal_Model.thread, looping in *. destruct (s_pc s) eqn:P; try contradiction.
  - destruct (s_active s) eqn:A; cbn [negb]; cycle 1.
    { unfold finish. destruct has_db; [destruct (s_pend s)|]; (split; [repeat split; cbn; auto|split; [exact I|apply TSame; reflexivity]]). }
    cbv zeta. destruct (s_wcode s) eqn:W; cbn [negb andb].
    + destruct (s_inop s) eqn:Io; cbn [andb].
      * destruct w.
        -- destruct (s_idle s); (split; [repeat split|split; [exact I|apply TSame; reflexivity]]).
        -- destruct (s_idle s); (split; [repeat split|split; [exact I|apply TSame; reflexivity]]).
        -- destruct (negb (s_ticks s =? 0)).
           ++ assert (same_env s (back_and_forth s) /\ s_read (back_and_forth s) = s_read s) as (SE & SR)
                by (unfold back_and_forth; destruct (get_previous _ _ _) as ([p|], l); (split; [repeat split|reflexivity])).
              destruct SE as (E1 & E2 & E3 & E4 & E5 & E6).
              destruct (s_idle (back_and_forth s)); (split; [repeat split; assumption|split; [exact I|apply TBack; [reflexivity|exact SR|reflexivity]]]).
           ++ destruct (s_idle s); (split; [repeat split|split; [exact I|apply TSame; reflexivity]]).
      * destruct (s_idle s); (split; [repeat split|split; [exact I|apply TSame; reflexivity]]).
    + destruct (s_idle s); (split; [repeat split|split; [exact I|apply TSame; reflexivity]]).
    + destruct (s_idle s); (split; [repeat split|split; [exact I|apply TSame; reflexivity]]).
  - destruct (s_active s) eqn:A; cbn [negb]; cycle 1.
    { split; [repeat split; cbn; auto|split; [exact I|apply TSame; reflexivity]]. }
    destruct err.
    { split; [repeat split|split; [exact I|apply TSame; reflexivity]]. }
    destruct (get_next (selects (s_reader s)) (s_journal s) (s_loc s)) as ([e|], l) eqn:G; cycle 1.
    { split; [repeat split|split; [exact I|apply TSame; reflexivity]]. }
    destruct (get_next_some _ _ _ _ _ O G) as (-> & He & Se & Ae & U).
    cbv zeta. destruct bad.
    + unfold common_error. destruct (100 <=? _); (split; [repeat split|split; [exact I|]]);
        (eapply TRead; [exact U|exact He|exact Se|reflexivity|reflexivity|reflexivity|exact P]).
    + destruct (switch_mode_eq e (set_loc (LAt (e_key e)) s)) as (bo & m & ->).
      destruct (100 <=? _); (split; [repeat split|split; [exact I|]]);
        (eapply TRead; [exact U|exact He|exact Se|reflexivity|reflexivity|reflexivity|exact P]).
  - unfold end_batch. destruct has_db; [|split; [repeat split|split; [exact I|apply TSame; reflexivity]]].
    cbv zeta. destruct (match s_last s with Some t => Some t | None => s_pend s end); [destruct (_ || _)|];
      (split; [repeat split|split; [exact I|apply TSame; reflexivity]]).
  - split; [repeat split|]. split; [rewrite P; exact I|apply TSame; reflexivity].
Qed.

(** ** Any step of the loop *)
Lemma step_env s o : looping s -> journal_ok s -> loc_ok s -> changes_matches o = false ->
  looping (step s o) /\ journal_ok (step s o) /\ loc_ok (step s o) /\ s_reader (step s o) = s_reader s.
Proof.
  intros L J Lo Cm. destruct o; try discriminate Cm; cbn [Journal_Model.step].
  - split; [exact L|]. split; [|split; [|reflexivity]].
    + destruct J as (O & Q). constructor; cbn [set_env s_journal s_seq s_now].
      * apply ordered_snoc; [exact O|]. intros f Hf. cbn [e_key e_real]. apply Q, Hf.
      * intros f Hf. apply in_app_iff in Hf. destruct Hf as [Hf|[<-|[]]]; [specialize (Q f Hf); lia|cbn [e_key e_real]; lia].
    + unfold loc_ok in *. cbn [set_env s_loc s_now s_seq]. destruct (s_loc s); [destruct Lo|exact Lo|lia].
  - split; [exact L|]. split; [|split; [exact Lo|reflexivity]].
    destruct J as (O & Q). constructor; cbn [set_env s_journal s_seq s_now].
    + apply ordered_filter, O.
    + intros f Hf. apply filter_In in Hf. apply Q, Hf.
  - split; [exact L|]. split; [|split; [|reflexivity]].
    + destruct J as (O & Q). constructor; cbn [set_env s_journal s_seq s_now]; [exact O|]. intros f Hf. specialize (Q f Hf). lia.
    + unfold loc_ok in *. cbn [set_env s_loc s_now s_seq]. destruct (s_loc s); [destruct Lo|lia|lia].
  - repeat split; try assumption; apply J; assumption.
  - repeat split; try assumption; apply J; assumption.
  - destruct (thread_step w err bad s L (j_order s J)) as ((E1 & E2 & E3 & E4 & E5 & E6) & L' & T).
    split; [exact L'|]. split; [constructor; [rewrite E1; apply J|intros e He; rewrite E2, E3; rewrite E1 in He; apply J, He]|].
    split; [|exact E4]. unfold loc_ok. rewrite E2, E3. destruct T as [e x rest U He Se El Eu Er P|El Er W|El Er].
    + rewrite El. apply (j_seq s J e He).
    + rewrite El, back_and_forth_loc. unfold bf_loc. destruct (get_previous _ _ _) as ([p|], l) eqn:G.
      * destruct (get_previous_some _ _ _ _ _ (j_order s J) G) as (-> & Hp & _).
        destruct (get_next _ _ _) as ([n|], l2) eqn:N; cbn [snd].
        -- destruct (get_next_some _ _ _ _ _ (j_order s J) N) as (-> & Hn & _). apply (j_seq s J n Hn).
        -- destruct (get_next_none _ _ _ _ N) as (-> & _). apply (j_seq s J p Hp).
      * destruct (get_previous_none _ _ _ _ G) as (-> & _). exact Lo.
    + rewrite El. exact Lo.
Qed.
Lemma step_read s o : looping s -> journal_ok s -> exists new, s_read (step s o) = s_read s ++ new.
Proof.
  intros L J. destruct o; cbn [Journal_Model.step]; try (exists []; cbn; rewrite app_nil_r; reflexivity).
  - destruct (add_match valid m (s_matches s) (s_reader s)) as (x & (ms & r)). exists []. cbn. rewrite app_nil_r. reflexivity.
  - destruct (del_match valid m (s_matches s) (s_reader s)) as (x & (ms & r)). exists []. cbn. rewrite app_nil_r. reflexivity.
  - destruct (thread_step w err bad s L (j_order s J)) as (_ & _ & T). destruct T as [e x rest U He Se El Eu Er P|El Er W|El Er];
      rewrite Er; [eauto|exists []; now rewrite app_nil_r|exists []; now rewrite app_nil_r].
Qed.

(** read entries come before all that is unread, in order *)
Lemma increasing_snoc l k : increasing l -> (forall m, In m l -> m < k) -> increasing (l ++ [k]).
Proof.
  induction l as [|x l IH]; cbn [app increasing]; intros O H; [split; [intros m []|exact I]|].
  destruct O as (O1 & O2). split.
  - intros m Hm. apply in_app_iff in Hm. destruct Hm as [Hm|[<-|[]]]; [auto|]. apply H. now left.
  - apply IH; [exact O2|]. intros m Hm. apply H. now right.
Qed.

Record Once (s0 s : st) (new : list (entry * option bool)) : Prop := {
  o_read : s_read s = s_read s0 ++ new;
  o_inc : increasing (keys new);
  o_sel : forall e x, In (e, x) new -> sel s0 e = true /\ after (s_loc s0) e = true;
  o_lt : forall e x f, In (e, x) new -> In f (unread s) -> e_key e < e_key f;
  o_seq : forall e x, In (e, x) new -> e_key e < s_seq s;
  o_after : forall f, In f (unread s) -> after (s_loc s0) f = true;
  o_loc : match s_loc s0 with LTail => False | LSeek t => t <= s_now s | LAt k => k < s_seq s end;
  o_reader : s_reader s = s_reader s0
}.
Lemma unread_in s e : In e (unread s) <-> In e (s_journal s) /\ sel s e = true /\ after (s_loc s) e = true.
Proof. unfold unread. rewrite filter_In, andb_true_iff. tauto. Qed.
Lemma unread_later s : unread s = later (sel s) (s_loc s) (s_journal s).
Proof. reflexivity. Qed.

Lemma once_step s0 s new o : Once s0 s new -> looping s -> journal_ok s -> loc_ok s -> changes_matches o = false ->
  exists new', Once s0 (step s o) new'.
Proof.
  intros H L J Lo Cm. destruct H as [Hr Hi Hs Hl Hq Ha Ho Hrd]. destruct o; try discriminate Cm.
  - exists new. constructor; cbn [Journal_Model.step set_env s_read s_reader s_seq s_now]; try assumption.
    + intros e x f He Hf. apply unread_in in Hf. cbn [set_env s_journal] in Hf. destruct Hf as (Hj & Sf & Af). apply in_app_iff in Hj.
      destruct Hj as [Hj|[<-|[]]]; [apply (Hl e x f He); apply unread_in; auto|]. cbn [e_key]. exact (Hq e x He).
    + intros e x He. specialize (Hq e x He). lia.
    + intros f Hf. apply unread_in in Hf. cbn [set_env s_journal] in Hf. destruct Hf as (Hj & Sf & Af). apply in_app_iff in Hj.
      destruct Hj as [Hj|[<-|[]]]; [apply Ha; apply unread_in; auto|]. destruct (s_loc s0); [destruct Ho| |]; cbn [after e_real e_key]; lia.
    + destruct (s_loc s0); lia.
  - exists new. constructor; cbn [Journal_Model.step set_env s_read s_reader s_seq s_now]; try assumption.
    + intros e x f He Hf. apply (Hl e x f He). apply unread_in in Hf. cbn [set_env s_journal] in Hf. destruct Hf as (Hj & Sf). apply filter_In in Hj. apply unread_in. split; [apply Hj|exact Sf].
    + intros f Hf. apply Ha. apply unread_in in Hf. cbn [set_env s_journal] in Hf. destruct Hf as (Hj & Sf). apply filter_In in Hj. apply unread_in. split; [apply Hj|exact Sf].
  - exists new. constructor; cbn [Journal_Model.step set_env s_read s_reader s_seq s_now]; try assumption. destruct (s_loc s0); [destruct Ho|lia|lia].
  - exists new. constructor; assumption.
  - exists new. constructor; assumption.
  - cbn [Journal_Model.step]. destruct (thread_step w err bad s L (j_order s J)) as ((E1 & E2 & E3 & E4 & E5 & E6) & L' & T).
    assert (sel (thread w err bad s) = sel s) as Es by (unfold sel; now rewrite E4).
    destruct T as [e x rest U He Se El Eu Er P|El Er W|El Er].
    + exists (new ++ [(e, x)]).
      assert (forall f, In f rest -> e_key e < e_key f) as Hrest.
      { intros f Hf. rewrite <- Eu in Hf. apply unread_in in Hf. rewrite El in Hf. cbn [after] in Hf. lia. }
      constructor.
      * rewrite Er, Hr, app_assoc. reflexivity.
      * unfold keys. rewrite map_app. cbn [map fst]. apply increasing_snoc; [exact Hi|]. intros m Hm. apply in_map_iff in Hm.
        destruct Hm as ((f & y) & <- & Hf). cbn [fst]. apply (Hl f y e Hf). rewrite U. now left.
      * intros f y Hf. apply in_app_iff in Hf. destruct Hf as [Hf|[Hf|[]]]; [exact (Hs f y Hf)|]. injection Hf as <- <-.
        split; [unfold sel in *; now rewrite <- Hrd|]. apply Ha. rewrite U. now left.
      * intros f y g Hf Hg. rewrite Eu in Hg. apply in_app_iff in Hf. destruct Hf as [Hf|[Hf|[]]].
        -- apply (Hl f y g Hf). rewrite U. now right.
        -- injection Hf as <- <-. apply Hrest, Hg.
      * intros f y Hf. rewrite E2. apply in_app_iff in Hf. destruct Hf as [Hf|[Hf|[]]]; [exact (Hq f y Hf)|]. injection Hf as <- <-. apply (j_seq s J e He).
      * intros f Hf. rewrite Eu in Hf. apply Ha. rewrite U. now right.
      * rewrite E2, E3. exact Ho.
      * rewrite E4. exact Hrd.
    + exists new.
      assert (forall f, In f (unread (thread w err bad s)) -> In f (unread s)) as Sub.
      { intros f Hf. rewrite unread_later in *. rewrite El, Es, E1, back_and_forth_loc in Hf. apply (bf_subset _ _ _ _ (j_order s J)) in Hf; [exact Hf|].
        unfold loc_ok in Lo. intros Q. rewrite Q in Lo. exact Lo. }
      constructor; rewrite ?Er, ?E2, ?E3, ?E4; try assumption.
      * intros e x f He Hf. apply (Hl e x f He), Sub, Hf.
      * intros f Hf. apply Ha, Sub, Hf.
    + exists new.
      assert (unread (thread w err bad s) = unread s) as Eu by (rewrite !unread_later, El, Es, E1; reflexivity).
      constructor; rewrite ?Er, ?E2, ?E3, ?E4, ?Eu; try assumption.
Qed.
Lemma once_run os : forall s0 s new, Once s0 s new -> looping s -> journal_ok s -> loc_ok s -> (forall o, In o os -> changes_matches o = false) ->
  exists new', Once s0 (run s os) new' /\ looping (run s os) /\ journal_ok (run s os) /\ loc_ok (run s os).
Proof.
  induction os as [|o os IH]; intros s0 s new H L J Lo Cm; [exists new; auto|].
  assert (changes_matches o = false) as Co by (apply Cm; now left).
  destruct (once_step s0 s new o H L J Lo Co) as (new1 & H1). destruct (step_env s o L J Lo Co) as (L1 & J1 & Lo1 & _).
  cbn [Journal_Model.run fold_left]. apply (IH s0 (step s o) new1 H1 L1 J1 Lo1). intros x Hx. apply Cm. now right.
Qed.
Lemma once_refl s : loc_ok s -> Once s s [].
Proof.
  intros Lo. constructor; try (intros; contradiction).
  - now rewrite app_nil_r.
  - exact I.
  - intros f Hf. apply unread_in in Hf. tauto.
  - exact Lo.
  - reflexivity.
Qed.

(** ** Nothing is lost *)
Lemma complete_step s0 s o new : looping s -> journal_ok s -> loc_ok s -> changes_matches o = false -> (invalidates o = true -> settled s) ->
  s_reader s = s_reader s0 -> s_read s = s_read s0 ++ new ->
  match s_loc s0 with LTail => False | LSeek t => t <= s_now s | LAt k => k < s_seq s end ->
  (forall e, In e (s_journal s) -> sel s0 e = true -> after (s_loc s0) e = true -> In e (map fst new) \/ In e (unread s)) ->
  exists new', s_read (step s o) = s_read s0 ++ new ++ new' /\
  forall e, In e (s_journal (step s o)) -> sel s0 e = true -> after (s_loc s0) e = true -> In e (map fst (new ++ new')) \/ In e (unread (step s o)).
Proof.
  intros L J Lo Cm Se Hrd Hr Ho H. destruct o; try discriminate Cm; cbn [Journal_Model.step].
  - exists []. rewrite app_nil_r. split; [exact Hr|]. intros e He S0 A0. cbn [set_env s_journal] in He. apply in_app_iff in He. destruct He as [He|[<-|[]]].
    + destruct (H e He S0 A0) as [Q|Q]; [now left|right]. apply unread_in in Q. apply unread_in. cbn [set_env s_journal]. split; [apply in_app_iff; left; tauto|tauto].
    + right. apply unread_in. split; [cbn [set_env s_journal]; apply in_app_iff; right; now left|]. unfold sel in *. cbn [set_env s_reader s_loc]. rewrite Hrd. split; [exact S0|].
      unfold loc_ok in Lo. destruct (s_loc s); [destruct Lo| |]; cbn [after e_real e_key]; lia.
  - exists []. rewrite app_nil_r. split; [exact Hr|]. intros e He S0 A0. cbn [set_env s_journal] in He. apply filter_In in He. destruct He as (He & Hk).
    destruct (H e He S0 A0) as [Q|Q]; [now left|right]. apply unread_in in Q. apply unread_in. cbn [set_env s_journal]. split; [apply filter_In; tauto|tauto].
  - exists []. rewrite app_nil_r. split; [exact Hr|]. intros e He S0 A0. destruct (H e He S0 A0) as [Q|Q]; [now left|right; exact Q].
  - exists []. rewrite app_nil_r. split; [exact Hr|]. intros e He S0 A0. destruct (H e He S0 A0) as [Q|Q]; [now left|right; exact Q].
  - exists []. rewrite app_nil_r. split; [exact Hr|]. intros e He S0 A0. destruct (H e He S0 A0) as [Q|Q]; [now left|right; exact Q].
  - destruct (thread_step w err bad s L (j_order s J)) as ((E1 & E2 & E3 & E4 & E5 & E6) & L' & T).
    assert (sel (thread w err bad s) = sel s) as Es by (unfold sel; now rewrite E4).
    destruct T as [e x rest U He Sx El Eu Er P|El Er W|El Er].
    + exists [(e, x)]. split; [rewrite Er, Hr, app_assoc; reflexivity|]. intros f Hf S0 A0. rewrite E1 in Hf. rewrite map_app, in_app_iff, Eu.
      destruct (H f Hf S0 A0) as [Q|Q]; [auto|]. rewrite U in Q. destruct Q as [<-|Q]; [left; right; now left|now right].
    + exists []. rewrite !app_nil_r. split; [now rewrite Er|]. intros f Hf S0 A0. rewrite E1 in Hf.
      assert (unread (thread w err bad s) = unread s) as ->; [|exact (H f Hf S0 A0)].
      rewrite !unread_later, El, Es, E1, back_and_forth_loc. rewrite bf_settled; [reflexivity|apply J|]. subst w. apply (Se eq_refl).
    + exists []. rewrite !app_nil_r. split; [now rewrite Er|]. intros f Hf S0 A0. rewrite E1 in Hf.
      assert (unread (thread w err bad s) = unread s) as ->; [|exact (H f Hf S0 A0)].
      rewrite !unread_later, El, Es, E1. reflexivity.
Qed.
Lemma seq_step s o : journal_ok s -> looping s -> s_seq s <= s_seq (step s o) /\ s_now s <= s_now (step s o).
Proof.
  intros J L. destruct o; cbn [Journal_Model.step]; try (cbn; lia).
  - destruct (add_match valid m (s_matches s) (s_reader s)) as (x & (ms & r)). cbn. lia.
  - destruct (del_match valid m (s_matches s) (s_reader s)) as (x & (ms & r)). cbn. lia.
  - destruct (thread_step w err bad s L (j_order s J)) as ((E1 & E2 & E3 & _) & _). rewrite E2, E3. lia.
Qed.
Lemma complete_run os : forall s0 s new, looping s -> journal_ok s -> loc_ok s -> (forall o, In o os -> changes_matches o = false) -> calm valid has_db findtime s os ->
  s_reader s = s_reader s0 -> s_read s = s_read s0 ++ new ->
  match s_loc s0 with LTail => False | LSeek t => t <= s_now s | LAt k => k < s_seq s end ->
  (forall e, In e (s_journal s) -> sel s0 e = true -> after (s_loc s0) e = true -> In e (map fst new) \/ In e (unread s)) ->
  exists new', s_read (run s os) = s_read s0 ++ new' /\
  forall e, In e (s_journal (run s os)) -> sel s0 e = true -> after (s_loc s0) e = true -> In e (map fst new') \/ In e (unread (run s os)).
Proof.
  induction os as [|o os IH]; intros s0 s new L J Lo Cm Ca Hrd Hr Ho H; [exists new; auto|].
  assert (changes_matches o = false) as Co by (apply Cm; now left). destruct Ca as (C1 & C2).
  destruct (complete_step s0 s o new L J Lo Co C1 Hrd Hr Ho H) as (new1 & R1 & H1).
  destruct (step_env s o L J Lo Co) as (L1 & J1 & Lo1 & E1).
  cbn [Journal_Model.run fold_left]. apply (IH s0 (step s o) (new ++ new1)); try assumption.
  - intros x Hx. apply Cm. now right.
  - now rewrite E1.
  - pose proof (seq_step s o J L). destruct (s_loc s0); lia.
Qed.

(** ** Nothing is removed: exactly all *)
Lemma placed_settled s : placed s -> settled s.
Proof. unfold placed, settled. destruct (s_loc s); [auto|intros (_ & H); exact H|auto]. Qed.
Lemma placed_step s o : placed s -> looping s -> journal_ok s -> loc_ok s -> changes_matches o = false -> removes o = false -> placed (step s o).
Proof.
  intros P L J Lo Cm Re. destruct o; try discriminate Cm; try discriminate Re; cbn [Journal_Model.step].
  - unfold placed in *. unfold sel in *. cbn [set_env s_loc s_journal s_now s_reader]. destruct (s_loc s); [exact P| |].
    + destruct P as (P1 & P2). split; [exact P1|]. intros e He Se. apply in_app_iff in He. destruct He as [He|[<-|[]]]; [auto|exact P1].
    + destruct P as (e & He & R). exists e. split; [apply in_app_iff; now left|exact R].
  - unfold placed in *. unfold sel in *. cbn [set_env s_loc s_journal s_now s_reader]. destruct (s_loc s); [exact P| |exact P]. split; [lia|apply P].
  - exact P.
  - exact P.
  - destruct (thread_step w err bad s L (j_order s J)) as ((E1 & E2 & E3 & E4 & _) & _ & T).
    assert (sel (thread w err bad s) = sel s) as Es by (unfold sel; now rewrite E4).
    destruct T as [e x rest U He Sx El Eu Er Pc|El Er W|El Er]; unfold placed; rewrite El, Es, E1, ?E3.
    + exists e. auto.
    + rewrite back_and_forth_loc, bf_settled; [exact P|apply J|exact (placed_settled s P)].
    + exact P.
Qed.
Lemma exact_run os : forall s0 s new, placed s -> looping s -> journal_ok s -> loc_ok s -> (forall o, In o os -> changes_matches o = false /\ removes o = false) ->
  s_reader s = s_reader s0 -> s_read s = s_read s0 ++ new ->
  match s_loc s0 with LTail => False | LSeek t => t <= s_now s | LAt k => k < s_seq s end ->
  map fst new ++ unread s = later (sel s0) (s_loc s0) (s_journal s) ->
  exists new', s_read (run s os) = s_read s0 ++ new' /\ map fst new' ++ unread (run s os) = later (sel s0) (s_loc s0) (s_journal (run s os)).
Proof.
  induction os as [|o os IH]; intros s0 s new P L J Lo Cm Hrd Hr Ho H; [exists new; auto|].
  destruct (Cm o (or_introl eq_refl)) as (Co & Ro).
  destruct (step_env s o L J Lo Co) as (L1 & J1 & Lo1 & E1).
  assert (exists new1, s_read (step s o) = s_read s0 ++ new1 /\ map fst new1 ++ unread (step s o) = later (sel s0) (s_loc s0) (s_journal (step s o))) as (new1 & R1 & H1).
  { destruct o; try discriminate Co; try discriminate Ro; cbn [Journal_Model.step].
    - exists new. split; [exact Hr|]. unfold later, unread in *. unfold sel in *. cbn [set_env s_journal s_loc s_reader]. rewrite !filter_app, app_assoc, H. f_equal.
      cbn [filter]. rewrite Hrd. f_equal.
      assert (after (s_loc s) (mkE (s_seq s) (s_now s) src terms) = true) as -> by (unfold loc_ok in Lo; destruct (s_loc s); [destruct Lo| |]; cbn [after e_real e_key]; lia).
      assert (after (s_loc s0) (mkE (s_seq s) (s_now s) src terms) = true) as -> by (destruct (s_loc s0); [destruct Ho| |]; cbn [after e_real e_key]; lia).
      reflexivity.
    - exists new. split; [exact Hr|exact H].
    - exists new. split; [exact Hr|exact H].
    - exists new. split; [exact Hr|exact H].
    - destruct (thread_step w err bad s L (j_order s J)) as ((X1 & X2 & X3 & X4 & _) & _ & T).
      assert (sel (thread w err bad s) = sel s) as Es by (unfold sel; now rewrite X4).
      destruct T as [e x rest U He Sx El Eu Er Pc|El Er W|El Er].
      + exists (new ++ [(e, x)]). split; [rewrite Er, Hr, app_assoc; reflexivity|]. rewrite map_app, <- app_assoc. cbn [map fst app]. rewrite Eu, X1, <- H, U. reflexivity.
      + exists new. split; [now rewrite Er|]. rewrite X1, <- H. f_equal. rewrite !unread_later, El, Es, X1, back_and_forth_loc. rewrite bf_settled; [reflexivity|apply J|].
        apply (placed_settled s P).
      + exists new. split; [now rewrite Er|]. rewrite X1, <- H. f_equal. rewrite !unread_later, El, Es, X1. reflexivity. }
  cbn [Journal_Model.run fold_left]. apply (IH s0 (step s o) new1); try assumption.
  - apply placed_step; assumption.
  - intros x Hx. apply Cm. now right.
  - now rewrite E1.
  - pose proof (seq_step s o J L). destruct (s_loc s0); lia.
Qed.

(** ** The thread reads all *)
Definition rank (s : st) : nat :=
  (3 * length (unread s) + match s_pc s with PEnd => 2 | PWait => 1 | _ => 0 end)%nat.
Lemma thread_rank w s : s_active s = true -> s_idle s = false -> (s_pc s = PWait \/ s_pc s = PRead \/ s_pc s = PEnd) -> journal_ok s -> (w = INVALIDATE -> settled s) ->
  let s' := thread w false false s in
  (unread s = [] -> unread s' = []) /\ (unread s <> [] -> (rank s' < rank s)%nat) /\ s_active s' = true /\ s_idle s' = false /\ (s_pc s' = PWait \/ s_pc s' = PRead \/ s_pc s' = PEnd).
Proof.
  intros A I P J Se s'.
  assert (looping s) as L by (unfold looping; destruct P as [Px|[Px|Px]]; rewrite Px; exact Logic.I).
  destruct (thread_step w false false s L (j_order s J)) as ((X1 & X2 & X3 & X4 & _ & X6) & _ & T). fold s' in X1, X2, X3, X4, X6, T.
  assert (sel s' = sel s) as Es by (unfold sel; now rewrite X4).
  assert (s_idle s' = false /\ (s_pc s' = PWait \/ s_pc s' = PRead \/ s_pc s' = PEnd) /\
          match s_pc s with PWait => s_pc s' = PRead | PEnd => s_pc s' = PWait | _ => True end) as (I' & P' & Pn).
  { unfold s', Journal_Model.thread. destruct P as [P|[P|P]]; rewrite P.
    - rewrite A. cbn [negb]. cbv zeta.
      match goal with |- context [if s_idle ?x then _ else _] => assert (s_idle x = false) as Ix; [|rewrite Ix; cbn [set_pc s_idle s_pc]; auto] end.
      assert (s_idle (back_and_forth s) = false) as B by (unfold back_and_forth; destruct (get_previous _ _ _) as ([?|], ?); exact I).
      destruct (match s_wcode s with NOP => s_inop s | _ => false end); [destruct w|destruct (s_wcode s)]; try exact I; destruct (_ && _); assumption.
    - rewrite A. cbn [negb]. destruct (get_next _ _ _) as ([e|], l); cbv zeta.
      + destruct (switch_mode_eq e (set_loc l s)) as (bo & m & ->). destruct (100 <=? _); cbn; auto.
      + cbn. auto.
    - unfold end_batch. destruct has_db; [|cbn; auto]. cbv zeta. destruct (match s_last s with Some t => Some t | None => s_pend s end); [destruct (_ || _)|]; cbn; auto. }
  destruct T as [e x rest U He Sx El Eu Er Pc|El Er W|El Er].
  - split; [intros Q; rewrite Q in U; discriminate U|]. split; [intros _|rewrite X6; auto]. unfold rank. rewrite U, Eu, Pc. cbn [length].
    destruct (s_pc s'); lia.
  - assert (unread s' = unread s) as Eu.
    { rewrite !unread_later, El, Es, X1, back_and_forth_loc. rewrite bf_settled; [reflexivity|apply J|]. apply (Se W). }
    split; [now rewrite Eu|]. split; [intros N|rewrite X6; auto]. unfold rank. rewrite Eu.
    destruct P as [P|[P|P]]; rewrite P in Pn; rewrite ?P, ?Pn; try lia.
    exfalso. unfold s', Journal_Model.thread in El, Er. rewrite P, A in El, Er. cbn [negb] in El, Er.
    destruct (get_next (selects (s_reader s)) (s_journal s) (s_loc s)) as ([e|], l) eqn:G.
    + cbv zeta in Er. destruct (switch_mode_eq e (set_loc l s)) as (bo & m & Q). rewrite Q in Er. match type of Er with context [if ?x then _ else _] => destruct x end; cbn in Er;
        apply (f_equal (@length _)) in Er; rewrite app_length in Er; cbn in Er; lia.
    + destruct (get_next_none _ _ _ _ G) as (_ & Q). apply N. exact Q.
  - assert (unread s' = unread s) as Eu by (rewrite !unread_later, El, Es, X1; reflexivity).
    split; [now rewrite Eu|]. split; [intros N|rewrite X6; auto]. unfold rank. rewrite Eu.
    destruct P as [P|[P|P]]; rewrite P in Pn; rewrite ?P, ?Pn; try lia.
    exfalso. unfold s', Journal_Model.thread in El, Er. rewrite P, A in El, Er. cbn [negb] in El, Er.
    destruct (get_next (selects (s_reader s)) (s_journal s) (s_loc s)) as ([e|], l) eqn:G.
    + cbv zeta in Er. destruct (switch_mode_eq e (set_loc l s)) as (bo & m & Q). rewrite Q in Er. match type of Er with context [if ?x then _ else _] => destruct x end; cbn in Er;
        apply (f_equal (@length _)) in Er; rewrite app_length in Er; cbn in Er; lia.
    + destruct (get_next_none _ _ _ _ G) as (_ & Q). apply N. exact Q.
Qed.
Lemma all_read os : forall s, s_active s = true -> s_idle s = false -> (s_pc s = PWait \/ s_pc s = PRead \/ s_pc s = PEnd) -> journal_ok s -> loc_ok s -> runs os -> calm valid has_db findtime s os ->
  (rank s <= length os)%nat -> unread (run s os) = [].
Proof.
  induction os as [|o os IH]; intros s A I P J Lo R C Hl.
  - cbn [length] in Hl. cbn. unfold rank in Hl. destruct (unread s); [reflexivity|cbn [length] in Hl; lia].
  - destruct (R o (or_introl eq_refl)) as (w & ->). destruct C as (C1 & C2).
    assert (w = INVALIDATE -> settled s) as C1' by (intros ->; apply C1; reflexivity).
    destruct (thread_rank w s A I P J C1') as (T1 & T2 & A' & I' & P').
    assert (looping s) as L by (unfold looping; destruct P as [Px|[Px|Px]]; rewrite Px; exact Logic.I).
    destruct (step_env s (ORun w false false) L J Lo eq_refl) as (_ & J' & Lo' & _). cbn [Journal_Model.run fold_left]. cbn [Journal_Model.step] in *.
    assert (runs os) as R' by (intros x Hx; apply R; now right).
    destruct (unread s) as [|e u] eqn:U.
    + (* stays empty *)
      clear Hl T2 IH. specialize (T1 eq_refl). clear U C1 C1'. revert A' I' P' J' Lo' T1 C2 R'. generalize (thread w false false s). clear. 
      induction os as [|o os IH]; intros s A I P J Lo U C R; [exact U|].
      destruct (R o (or_introl eq_refl)) as (w & ->). destruct C as (C1 & C2).
      destruct (thread_rank w s A I P J) as (T1 & T2 & A' & I' & P'); [intros ->; apply C1; reflexivity|].
      assert (looping s) as L by (unfold looping; destruct P as [Px|[Px|Px]]; rewrite Px; exact Logic.I).
      destruct (step_env s (ORun w false false) L J Lo eq_refl) as (_ & J' & Lo' & _). cbn [fold_left Journal_Model.step] in *.
      apply IH; auto. intros x Hx. apply R. now right.
    + assert (e :: u <> []) as Nn by discriminate. specialize (T2 Nn). cbn [length] in Hl. apply IH; auto. lia.
Qed.
End T.
