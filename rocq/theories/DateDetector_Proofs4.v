(** The state of a detector over its whole life. *)
From Coq Require Import QArith Permutation ZifyBool ZifyNat.
From Verif Require Import Base Text DateDetector_Model DateDetector_Spec DateDetector_Proofs DateDetector_Proofs2 DateDetector_Proofs3.
Local Open Scope nat_scope.

Definition at_hand (defaults : list template) (l : list entry) : list entry := match l with [] => map fresh defaults | _ => l end.

Lemma app_inv_length {A} (a b c d : list A) : a ++ b = c ++ d -> length a = length c -> a = c /\ b = d.
Proof.
  revert c; induction a as [|x a IH]; intros [|y c] H L; try discriminate; auto.
  cbn in H, L. injection H as -> H. injection L as L. destruct (IH _ H L) as [-> ->]. auto.
Qed.

(** ** Adding templates *)
Lemma map_fresh_name l : map tname (map fresh l) = map t_name l.
Proof. rewrite map_map. apply map_ext. reflexivity. Qed.
Lemma in_snoc {A} (x y : A) l : In x (l ++ [y]) <-> x = y \/ In x l.
Proof. rewrite in_app_iff. cbn. intuition congruence. Qed.

Lemma append_t_spec m s t dup : inv m s ->
  append_t s t dup = if inb (t_name t) (map tname (ts s)) then if dup then Some s else None
    else Some (mkS (ts s ++ [fresh t]) (names s ++ [t_name t]) (last_seen s) (unused s) (shared s)).
Proof.
  intros I. unfold append_t. replace (inb (t_name t) (names s)) with (inb (t_name t) (map tname (ts s))); auto.
  destruct (inb (t_name t) (names s)) eqn:E.
  - apply inb_In. apply inb_In in E. now apply (i_names _ _ I).
  - apply inb_false. apply inb_false in E. intros H. apply E. now apply (i_names _ _ I).
Qed.
Lemma append_inv m s t : inv m s -> ~ In (t_name t) (map tname (ts s)) ->
  inv m (mkS (ts s ++ [fresh t]) (names s ++ [t_name t]) (last_seen s) (unused s) (shared s)).
Proof.
  intros I N. destruct I as [I1 I2 I3 I4 I5]. split; cbn [ts names shared].
  - rewrite map_app. apply NoDup_snoc; auto.
  - intros n. rewrite map_app. cbn [map]. rewrite !in_snoc, I2. reflexivity.
  - unfold remembers in *. cbn [last_seen ts shared]. destruct (last_seen s) as [n|], m as [[[[L t'] a] b]|]; auto.
    destruct I3 as (e & He & R). exists e. split; auto. rewrite nth_error_app1; auto. apply nth_error_Some. congruence.
  - auto.
  - apply Forall_app. split; auto. constructor; auto. cbn. lia.
Qed.

Lemma append_all_spec m l : forall s dup, inv m s -> dup = true \/ NoDup (map tname (ts s) ++ map t_name l) ->
  exists nm, append_all s l dup = (mkS (ts s ++ map fresh (news (map tname (ts s)) l)) nm (last_seen s) (unused s) (shared s), true).
Proof.
  induction l as [|t l IH]; intros s dup I H; cbn [append_all news map].
  - exists (names s). rewrite app_nil_r. destruct s; reflexivity.
  - rewrite (append_t_spec m) by auto. destruct (inb (t_name t) (map tname (ts s))) eqn:E.
    + apply inb_In in E. destruct H as [-> | H].
      * apply IH; auto.
      * exfalso. apply NoDup_remove_2 in H. apply H. apply in_app_iff; auto.
    + apply inb_false in E.
      destruct (IH _ dup (append_inv _ _ _ I E)) as [nm Q].
      * destruct H as [->|H]; auto. right. cbn [ts]. rewrite map_app. cbn [map]. now rewrite <- app_assoc.
      * exists nm. rewrite Q. cbn [ts last_seen unused shared]. rewrite map_app, <- app_assoc. reflexivity.
Qed.
Lemma append_all_inv m l : forall s dup s' ok, inv m s -> append_all s l dup = (s', ok) -> inv m s'.
Proof.
  induction l as [|t l IH]; intros s dup s' ok I; cbn [append_all]. { intros H. injection H as <- _. exact I. }
  rewrite (append_t_spec m) by auto. destruct (inb (t_name t) (map tname (ts s))) eqn:E.
  - destruct dup; [apply IH; auto|]. intros H. injection H as <- _. exact I.
  - apply inb_false in E. apply IH. now apply append_inv.
Qed.
Lemma append_all_same l : forall s dup s' ok, append_all s l dup = (s', ok) ->
  exists x, ts s' = ts s ++ map fresh x /\ last_seen s' = last_seen s /\ unused s' = unused s /\ shared s' = shared s /\ incl x l.
Proof.
  induction l as [|t l IH]; intros s dup s' ok; cbn [append_all].
  { intros H. injection H as <- _. exists []. cbn. rewrite app_nil_r. repeat split. intros ? []. }
  unfold append_t. destruct (inb (t_name t) (names s)).
  - destruct dup; intros H.
    + destruct (IH _ _ _ _ H) as (x & ? & ? & ? & ? & ?). exists x. repeat (split; [solve [auto]|]). now apply incl_tl.
    + injection H as <- _. exists []. cbn. rewrite app_nil_r. repeat split. intros ? [].
  - intros H. destruct (IH _ _ _ _ H) as (x & H1 & ? & ? & ? & ?). exists (t :: x). cbn [ts last_seen unused shared] in *.
    rewrite <- app_assoc in H1. repeat (split; [solve [auto]|]). intros y [<-|Hy]; [now left|right; auto].
Qed.
Lemma news_nodup l : forall k, NoDup (k ++ map t_name l) -> news k l = l.
Proof.
  induction l as [|t l IH]; intros k H; cbn [news]; auto. cbn [map] in H.
  destruct (inb (t_name t) k) eqn:E.
  - apply inb_In in E. apply NoDup_remove_2 in H. exfalso. apply H. apply in_app_iff; auto.
  - f_equal. apply IH. now rewrite <- app_assoc.
Qed.

Section Search.
Context (search : template -> text -> option (nat * nat) -> option (nat * nat)) (defaults : list template).

(** The state matchTime begins with *)
Definition ready (s : state) : state * bool := if length (ts s) =? 0 then add_default s defaults else (s, true).
Lemma match_time_ready s line now : match_time search s defaults line now =
  let (s1, ok) := ready s in
  if ok then
    match pick search s1 line with
    | (Some w, sh) => settle s1 sh line now w
    | (None, sh) => (mkS (ts s1) (names s1) (last_seen s1) (unused s1) sh, Nothing)
    end
  else (s1, DupErr).
Proof.
  unfold match_time. change (if length (ts s) =? 0 then add_default s defaults else (s, true)) with (ready s).
  destruct (ready s) as [s1 ok]. destruct ok; auto. unfold pick. destruct (try_last search s1 line) as [[[w res] skip] sh].
  destruct w as [w|]; auto. destruct (scan search line skip (last_pos s1) res sh 0 (ts s1)) as [[w res'] sh'].
  destruct w; reflexivity.
Qed.
Lemma ready_inv m s s1 ok : inv m s -> ready s = (s1, ok) -> inv m s1.
Proof.
  intros I. unfold ready, add_default. destruct (length (ts s) =? 0); [|intros H; injection H as <- _; auto].
  apply append_all_inv. exact I.
Qed.
Lemma ready_same s s1 ok : ready s = (s1, ok) -> exists x, ts s1 = ts s ++ map fresh x /\ incl x defaults /\
  last_seen s1 = last_seen s /\ unused s1 = unused s /\ shared s1 = shared s /\ (ts s <> [] -> s1 = s /\ ok = true).
Proof.
  unfold ready, add_default. destruct (length (ts s) =? 0) eqn:E; intros H.
  - apply append_all_same in H as (x & ? & ? & ? & ? & ?). exists x. repeat (split; [solve [auto]|]). destruct (ts s); [contradiction|discriminate].
  - injection H as <- <-. exists []. cbn. rewrite app_nil_r. repeat split. intros ? [].
Qed.
Lemma ready_ok m s : inv m s -> NoDup (map t_name defaults) -> exists s1, ready s = (s1, true) /\ ts s1 = at_hand defaults (ts s) /\
  last_seen s1 = last_seen s /\ unused s1 = unused s /\ shared s1 = shared s.
Proof.
  intros I ND. unfold ready. destruct (length (ts s) =? 0) eqn:E.
  - unfold add_default. rewrite E. cbn [negb]. assert (T : ts s = []) by (destruct (ts s); auto; discriminate).
    destruct (append_all_spec m defaults s false I) as [nm Q]. { right. now rewrite T. }
    rewrite Q. eexists. split; [reflexivity|]. cbn [ts last_seen unused shared]. rewrite T. cbn [map app].
    rewrite news_nodup by auto. cbn [at_hand]. auto.
  - exists s. split; auto. destruct (ts s); [discriminate|]. cbn [at_hand]. auto.
Qed.

End Search.

(** ** What a date found does *)
Lemma settle_found m s sh line now a b i e c c2 : inv m s -> nth_error (ts s) i = Some e ->
  char_at line a = Some c -> last_char line b = Some c2 ->
  exists s' front passed j, settle s sh line now (a, b, i) = (s', Found (d_t e) a b) /\
    promoted (ts s) (ts s') (d_t e) a now front passed e /\ names s' = names s /\ shared s' = sh /\
    last_seen s' = Some (mkSeen j a (before line a) c b c2 (sub1 line b)) /\ j = length front /\ i = length (front ++ passed) /\
    (let u := if unused s =? i then S (unused s) else unused s in
     why u front passed (hit now a e) /\ unused s' = match passed with [] => u | _ => advance u (ts s') end) /\
    (i = 0 \/ (exists n, last_seen s = Some n /\ n_idx n = i) -> passed = []) /\
    (i <> 0 -> (forall n, last_seen s = Some n -> n_idx n <> i) -> unused s < i ->
     forall p, nth_error (front ++ passed) (unused s) = Some p -> heavier (hit now a e) p = true -> length front = unused s).
Proof.
  intros I He Hc Hc2. unfold settle. rewrite He, Hc, Hc2. cbv zeta. fold (hit now a e).
  destruct (set_nth_split _ _ _ (hit now a e) He) as (p & q & E & Lp & Es). rewrite Es.
  set (u := if unused s =? i then S (unused s) else unused s).
  destruct (negb (i =? 0) && negb (match last_seen s with Some n => i =? n_idx n | None => false end)) eqn:B.
  - destruct (reorder (p ++ hit now a e :: q) u i) as [[l' u'] j] eqn:R.
    assert (Hn : nth_error (p ++ hit now a e :: q) i = Some (hit now a e)) by (rewrite <- Lp; apply nth_error_mid).
    destruct (reorder_spec _ _ _ _ _ _ _ Hn R) as (front & passed & rest & E1 & E2 & E3 & E4 & E5 & E6).
    rewrite app_assoc in E1. apply app_inv_length in E1 as [Ep Eq]; [|rewrite <- E4; exact Lp]. injection Eq as <-.
    do 2 eexists. exists passed, j. split; [reflexivity|]. cbn [ts names shared last_seen unused].
    split. { econstructor; [rewrite E, Ep, <- app_assoc; reflexivity|reflexivity|exact E2]. }
    do 4 (split; [solve [auto]|]). split; [exact E4|]. split; [split; auto|].
    split. { intros [-> |(n & Q & Qi)]; [discriminate|]. rewrite Q in B. lia. }
    intros _ _ Lu x Hx Hh. rewrite <- E3. assert (Eu : u = unused s) by (unfold u; replace (unused s =? i) with false by lia; reflexivity).
    rewrite <- Eu. apply (reorder_jump _ _ _ _ _ _ _ x Hn R); auto; [lia|]. rewrite Eu, Ep, nth_error_app1; auto. lia.
  - do 2 eexists. exists [], i. split; [reflexivity|]. cbn [ts names shared last_seen unused].
    split. { econstructor; [exact E|reflexivity|reflexivity]. }
    do 3 (split; [reflexivity|]). split; [exact (eq_sym Lp)|]. rewrite app_nil_r. split; [exact (eq_sym Lp)|]. split; [cbn; auto|]. split; [auto|].
    intros Hi Hl. exfalso. destruct (last_seen s) as [n|]; [specialize (Hl _ eq_refl)|]; lia.
Qed.
Lemma settle_error s sh line now a b i e : nth_error (ts s) i = Some e ->
  char_at line a = None \/ last_char line b = None ->
  exists front rest, settle s sh line now (a, b, i) =
    (mkS (front ++ hit now a e :: rest) (names s) (last_seen s) (if unused s =? i then S (unused s) else unused s) sh, IndexErr) /\
    ts s = front ++ e :: rest.
Proof.
  intros He H. unfold settle. rewrite He. cbv zeta. fold (hit now a e).
  destruct (set_nth_split _ _ _ (hit now a e) He) as (p & q & E & Lp & Es). rewrite Es. exists p, q. split; auto.
  destruct H as [-> | ->]; auto. destruct (char_at line a); auto.
Qed.
