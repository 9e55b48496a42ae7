(** Lemmas about the database. *)
From Verif Require Import Base Ticket_Model Database_Model Database_Spec.
From Coq Require Import ZifyBool ZifyNat Permutation Sorted.

(** ** sorting *)
Lemma insert_by_perm {A} (le : A -> A -> bool) x l : Permutation (insert_by le x l) (x :: l).
Proof.
  induction l as [|y l IH]; cbn; [reflexivity|]. destruct (le x y); [reflexivity|].
  rewrite IH. apply perm_swap.
Qed.
Lemma sort_by_perm {A} (le : A -> A -> bool) l : Permutation (sort_by le l) l.
Proof. induction l as [|x l IH]; cbn; [reflexivity|]. rewrite insert_by_perm. now constructor. Qed.
Lemma In_sort_by {A} (le : A -> A -> bool) l x : In x (sort_by le l) <-> In x l.
Proof. split; apply Permutation_in; [|symmetry]; apply sort_by_perm. Qed.
Lemma insert_by_sorted {A} (le : A -> A -> bool) (T : forall x y, le x y = true \/ le y x = true) x l :
  Sorted (fun a b => le a b = true) l -> Sorted (fun a b => le a b = true) (insert_by le x l).
Proof.
  induction 1 as [|y l S IH H]; cbn; [repeat constructor|].
  destruct (le x y) eqn:E; [repeat (constructor; auto)|].
  assert (Eyx : le y x = true) by (destruct (T x y); congruence).
  constructor; [exact IH|]. destruct l as [|z l]; cbn in *; [now constructor|].
  destruct (le x z); constructor; [exact Eyx|]. now inversion H.
Qed.
Lemma sort_by_sorted {A} (le : A -> A -> bool) (T : forall x y, le x y = true \/ le y x = true) l :
  Sorted (fun a b => le a b = true) (sort_by le l).
Proof. induction l as [|x l IH]; cbn; [constructor|]. now apply insert_by_sorted. Qed.

Lemma ip_order_total x y : ip_order x y = true \/ ip_order y x = true.
Proof. apply String.leb_total. Qed.
Lemma ban_order_total x y : ban_order x y = true \/ ban_order y x = true.
Proof.
  unfold ban_order, String.ltb. rewrite (String.compare_antisym (r_ip y)).
  destruct (String.compare (r_ip x) (r_ip y)) eqn:E; cbn; auto.
  apply String.compare_eq_iff in E. rewrite E, eqb_refl. cbn. lia.
Qed.

(** ** well-formed databases *)
Definition bips_ok (l : dict (string * string) row) : Prop :=
  dwf l /\ forall k r, In (k, r) l -> k = (r_ip r, r_jail r).
Definition logs_ok (d : db) : Prop := forall j p x, In ((j, p), x) (db_logs d) -> dmem j (db_jails d) = true.
Definition db_wf (d : db) : Prop :=
  bips_ok (db_bips d) /\ dwf (db_jails d) /\ dwf (db_logs d) /\ logs_ok d.

Lemma filter_ok f l : bips_ok l -> bips_ok (filter f l).
Proof. intros [W C]. split; [now apply dwf_filter|]. intros k r I. apply filter_In in I as [I _]. auto. Qed.

Lemma In_dset {K V} `{EqB K} (k : K) (v : V) l x : In x (dset k v l) -> x = (k, v) \/ In x l.
Proof.
  induction l as [|[k' v'] l IH]; cbn; [intros [<-|[]]; auto|].
  destruct (eqb_spec k k') as [->|N]; cbn; [intros [<-|I]; auto|]. intros [<-|I]; auto. destruct (IH I); auto.
Qed.

Lemma dset_ok r l : bips_ok l -> bips_ok (dset (r_ip r, r_jail r) r l).
Proof.
  intros [W C]. split; [now apply dwf_dset|]. intros k x I. apply In_dset in I as [E|I]; [|auto].
  injection E as -> ->. reflexivity.
Qed.

Lemma del_ban_bips j ips d :
  db_bips (del_ban j ips d)
  = filter (fun kv => negb (eqb (snd (fst kv)) j && match ips with [] => true | _ => inb (fst (fst kv)) ips end)) (db_bips d).
Proof.
  unfold del_ban. destruct ips as [|i ips].
  - cbn. apply filter_ext. intros a. now rewrite andb_true_r.
  - assert (G : forall l d, db_bips (fold_left (fun d ip =>
           with_bans (filter (fun r => negb (eqb (r_jail r) j && eqb (r_ip r) ip)) (db_bans d))
             (with_bips (filter (fun kv => negb (eqb (snd (fst kv)) j && eqb (fst (fst kv)) ip)) (db_bips d)) d)) l d)
        = filter (fun kv => negb (eqb (snd (fst kv)) j && inb (fst (fst kv)) l)) (db_bips d)).
    { clear. induction l as [|x l IH]; intros d; cbn [fold_left].
      - cbn. symmetry. rewrite <- (filter_ext (fun _ => true)); [now induction (db_bips d); cbn; f_equal|].
        intros a. cbn. now rewrite andb_false_r.
      - rewrite IH. cbn. rewrite filter_filter_and. apply filter_ext. intros a.
        unfold inb. cbn. destruct (eqb (snd (fst a)) j), (eqb (fst (fst a)) x); cbn; reflexivity. }
    apply G.
Qed.
Lemma del_ban_bans j ips d :
  db_bans (del_ban j ips d)
  = filter (fun r => negb (eqb (r_jail r) j && match ips with [] => true | _ => inb (r_ip r) ips end)) (db_bans d).
Proof.
  unfold del_ban. destruct ips as [|i ips].
  - cbn. apply filter_ext. intros a. now rewrite andb_true_r.
  - assert (G : forall l d, db_bans (fold_left (fun d ip =>
           with_bans (filter (fun r => negb (eqb (r_jail r) j && eqb (r_ip r) ip)) (db_bans d))
             (with_bips (filter (fun kv => negb (eqb (snd (fst kv)) j && eqb (fst (fst kv)) ip)) (db_bips d)) d)) l d)
        = filter (fun r => negb (eqb (r_jail r) j && inb (r_ip r) l)) (db_bans d)).
    { clear. induction l as [|x l IH]; intros d; cbn [fold_left].
      - cbn. symmetry. rewrite <- (filter_ext (fun _ => true)); [now induction (db_bans d); cbn; f_equal|].
        intros a. cbn. now rewrite andb_false_r.
      - rewrite IH. cbn. rewrite filter_filter_and. apply filter_ext. intros a.
        unfold inb. cbn. destruct (eqb (r_jail a) j), (eqb (r_ip a) x); cbn; reflexivity. }
    apply G.
Qed.
Lemma del_ban_frame j ips d : db_jails (del_ban j ips d) = db_jails d /\ db_logs (del_ban j ips d) = db_logs d
  /\ db_cache (del_ban j ips d) = db_cache d.
Proof.
  unfold del_ban. destruct ips as [|i ips]; [auto|]. generalize (i :: ips). clear. intros l. revert d.
  induction l as [|x l IH]; intros d; cbn [fold_left]; [auto|]. destruct (IH (with_bans (filter (fun r => negb (eqb (r_jail r) j && eqb (r_ip r) x)) (db_bans d))
             (with_bips (filter (fun kv => negb (eqb (snd (fst kv)) j && eqb (fst (fst kv)) x)) (db_bips d)) d))) as (-> & -> & ->). auto.
Qed.

Lemma dmem_filter {K V} `{EqB K} f (l : dict K V) k : dwf l -> dmem k (filter f l) = match dget k l with Some v => f (k, v) | None => false end.
Proof. intros W. unfold dmem. rewrite dget_filter by exact W. destruct (dget k l) as [v|]; [|reflexivity]. now destruct (f (k, v)). Qed.

Lemma wf_step cfg d o : db_wf d -> db_wf (db_step cfg d o).
Proof.
  intros (B & J & L & C). destruct o; cbn [db_step].
  - repeat split; cbn; auto; try apply B; try apply dwf_dset; auto. intros j' p x I. specialize (C _ _ _ I).
    cbn. unfold dmem in *. rewrite dget_dset. destruct (eqb _ _); auto.
  - unfold del_jail. destruct (dmem j (db_jails d)) eqn:E; [|repeat split; auto; apply B].
    repeat split; cbn; auto; try apply B; try apply dwf_dset; auto. intros j' p x I. specialize (C _ _ _ I).
    cbn. unfold dmem in *. rewrite dget_dset. destruct (eqb _ _); auto.
  - repeat split; cbn; auto; try apply B.
    + unfold dwf, dkeys in *. now rewrite map_map.
    + intros j p x I. specialize (C _ _ _ I). cbn. apply dmem_In. apply dmem_In in C. unfold dkeys in *. now rewrite map_map.
  - unfold add_ban. destruct (dmem j _) eqn:E; cbn; [|repeat split; auto; apply B].
    repeat split; cbn; auto; try (apply (dset_ok (mkRow j (t_id t) (t_time t) (get_bantime bt t) (t_bancount t) (t_failures t) (stored_matches (maxMatches cfg) (t_matches t))) (db_bips d) B)).
  - destruct (del_ban_frame j ips d) as (E1 & E2 & _). unfold db_wf, logs_ok. rewrite del_ban_bips, E1, E2.
    split; [now apply filter_ok|]. auto.
  - unfold purge. repeat split; cbn.
    + apply filter_ok. exact B.
    + apply (filter_ok _ _ B).
    + now apply dwf_filter.
    + now apply dwf_filter.
    + intros j p x I. apply filter_In in I as [I K]. cbn in K. specialize (C _ _ _ I). cbn.
      rewrite dmem_filter by exact J. unfold dmem in C. destruct (dget j (db_jails d)) as [e|] eqn:E; [|discriminate].
      cbn in *. apply negb_true_iff, inb_false in K.
      match goal with |- ?b = true => destruct b eqn:Eb; [reflexivity|] end. exfalso. apply K.
      apply in_map_iff. exists (j, e). split; [reflexivity|]. apply filter_In. split; [now apply dget_In|].
      cbn. now rewrite Eb.
  - unfold add_log. destruct (dget (j, path) (db_logs d)) as [[[f|] p]|]; cbn; try (repeat split; auto; apply B).
    all: destruct (negb _ || _); cbn; [|repeat split; auto; apply B].
    all: destruct (dmem j (db_jails d)) eqn:E; cbn; [|repeat split; auto; apply B].
    all: repeat split; cbn; auto; try apply B; try (now apply dwf_dset).
    all: intros j' p' x I; apply In_dset in I as [X|I]; [injection X as -> -> ->; exact E|eapply C; eauto].
  - unfold update_log. destruct (dmem (j, path) (db_logs d) || dmem j (db_jails d)) eqn:E; cbn; [|repeat split; auto; apply B].
    repeat split; cbn; auto; try apply B; try (now apply dwf_dset).
    intros j' p' x I; apply In_dset in I as [X|I]; [injection X as -> -> ->|eapply C; eauto].
    apply orb_true_iff in E as [E|E]; [|exact E]. cbn. unfold dmem in E. destruct (dget (j, path) (db_logs d)) as [y|] eqn:G; [|discriminate].
    apply dget_In in G. eapply C; eauto.
  - unfold get_bans_merged. destruct (match bantime with None => true | Some b => b <? 0 end); [|repeat split; auto; apply B].
    destruct (dget _ _); repeat split; auto; apply B.
Qed.
Lemma wf_run cfg ops : forall d, db_wf d -> db_wf (db_run cfg ops d).
Proof. unfold db_run. induction ops as [|o ops IH]; intros d W; cbn; auto. apply IH. now apply wf_step. Qed.
Lemma wf_init : db_wf db_init.
Proof. split; [split; [apply dwf_nil|intros k r []]|]. do 2 (split; [apply dwf_nil|]). intros j p x []. Qed.

(** ** enabled jails exist *)
Definition has_jail (j : string) (d : db) : Prop := dget j (db_jails d) = Some true.

Lemma has_jail_step cfg d o j cur : db_wf d -> (cur = true -> has_jail j d) ->
  enabled j [o] cur = true -> has_jail j (db_step cfg d o).
Proof.
  intros (B & J & L & C) H E. unfold has_jail in *. destruct o; cbn in *.
  - destruct (eqb_spec j j0) as [->|N]; [apply dget_dset_same|]. rewrite dget_dset_other by congruence. auto.
  - unfold del_jail. destruct (eqb_spec j j0) as [->|N]; [discriminate|].
    destruct (dmem j0 (db_jails d)); [|auto]. cbn. rewrite dget_dset_other by congruence. auto.
  - discriminate.
  - unfold add_ban. destruct (dmem _ _); cbn; auto.
  - destruct (del_ban_frame j0 ips d) as (-> & _ & _). auto.
  - rewrite dget_filter by exact J. rewrite H by exact E. reflexivity.
  - unfold add_log. destruct (dget (j0, path) (db_logs d)) as [[[f|] p]|]; cbn; auto;
      destruct (negb _ || _); cbn; auto; destruct (dmem j0 _); cbn; auto.
  - unfold update_log. destruct (_ || _); cbn; auto.
  - unfold get_bans_merged. destruct (match bantime with None => true | Some b => b <? 0 end); [|auto].
    destruct (dget _ (db_cache d)); cbn; auto.
Qed.

(** ** the row that is stored *)
Definition row_of (cfg : settings) (j : string) (bt : Z) (t : ticket) : row :=
  mkRow j (t_id t) (t_time t) (get_bantime bt t) (t_bancount t) (t_failures t) (stored_matches (maxMatches cfg) (t_matches t)).

Definition over (now : Z) (e : Z * ticket) : Prop :=
  get_bantime (fst e) (snd e) <> -1 /\ t_time (snd e) + get_bantime (fst e) (snd e) < now.
Definition rel cfg now j ip (d : db) (cur : option (Z * ticket)) : Prop :=
  (dget (ip, j) (db_bips d) = option_map (fun e => row_of cfg j (fst e) (snd e)) cur)
  \/ (dget (ip, j) (db_bips d) = None /\ exists e, cur = Some e /\ over now e).
Definition sane_entry (cur : option (Z * ticket)) : Prop :=
  match cur with Some e => get_bantime (fst e) (snd e) = -1 \/ 0 < get_bantime (fst e) (snd e) | None => True end.

Lemma last_ban_cons j ip o ops cur : last_ban j ip (o :: ops) cur = last_ban j ip ops (last_ban j ip [o] cur).
Proof. destruct o; reflexivity. Qed.
Lemma enabled_cons j o ops cur : enabled j (o :: ops) cur = enabled j ops (enabled j [o] cur).
Proof. destruct o; reflexivity. Qed.

Lemma rel_step cfg now j ip d o cur en : sane_settings cfg -> db_wf d -> sane_history now [o] -> sane_entry cur ->
  (en = true -> has_jail j d) -> (match o with DAddBan j' _ _ => if eqb j j' then en = true else True | _ => True end) ->
  rel cfg now j ip d cur -> rel cfg now j ip (db_step cfg d o) (last_ban j ip [o] cur) /\ sane_entry (last_ban j ip [o] cur).
Proof.
  intros [P1 P2] (B & J & L & C) SH SE EN U R. apply Forall_inv in SH. destruct o; cbn [db_step last_ban]; try (split; [exact R|exact SE]).
  - unfold del_jail. destruct (dmem _ _); split; auto.
  - (* add *) unfold add_ban. destruct (eqb_spec j j0) as [->|N].
    + specialize (EN U). unfold has_jail in EN. cbn [with_cache db_jails]. unfold dmem. rewrite EN. cbn [fst andb].
      unfold rel. cbn [with_bips with_bans db_bips with_cache]. destruct (eqb_spec ip (t_id t)) as [->|N].
      * split; [left; now rewrite dget_dset_same|exact SH].
      * rewrite dget_dset_other by congruence. split; [exact R|exact SE].
    + cbn [andb]. split; [|exact SE]. destruct (dmem _ _); cbn [fst]; unfold rel in *; cbn [with_bips with_bans db_bips with_cache];
        [rewrite dget_dset_other by congruence|]; exact R.
  - (* del *) unfold rel. rewrite del_ban_bips. rewrite dget_filter by apply B. destruct (eqb_spec j j0) as [->|N]; cbn [andb].
    + destruct (match ips with [] => true | _ => inb ip ips end) eqn:E.
      * split; [left|exact I]. destruct (dget (ip, j0) (db_bips d)); [|reflexivity]. cbn. now rewrite eqb_refl, E.
      * split; [|exact SE]. destruct R as [->|(-> & R)]; [left|right; auto]. destruct cur; [|reflexivity]. cbn. now rewrite E, andb_false_r.
    + split; [|exact SE]. destruct R as [->|(-> & R)]; [left|right; auto]. destruct cur; [|reflexivity]. cbn.
      destruct (eqb_spec j j0); [congruence|]. reflexivity.
  - (* purge *) split; [|exact SE]. unfold rel, purge. cbn [with_bips with_bans db_bips with_cache with_logs with_jails].
    rewrite dget_filter by apply B. destruct R as [->|(-> & R)]; [|right; auto]. destruct cur as [e|]; [|left; reflexivity].
    cbn [option_map snd row_of r_time r_bt]. match goal with |- context [if negb ?b then _ else _] => destruct b eqn:E end; [|left; reflexivity].
    right. split; [reflexivity|]. exists e. split; [reflexivity|]. cbn in SE. unfold over. split; [lia|]. nia.
  - unfold add_log. destruct (dget (j0, path) (db_logs d)) as [[[f|] p]|]; cbn; try (split; assumption);
      destruct (negb _ || _); cbn; try (split; assumption); destruct (dmem j0 _); cbn; split; assumption.
  - unfold update_log. destruct (_ || _); cbn; split; assumption.
  - unfold get_bans_merged. destruct (match bantime with None => true | Some b => b <? 0 end); [|split; assumption].
    destruct (dget _ (db_cache d)); cbn; split; assumption.
Qed.

Lemma rel_run cfg now j ip ops : sane_settings cfg -> forall d cur en, sane_history now ops -> db_wf d -> sane_entry cur ->
  (en = true -> has_jail j d) -> well_used j ops en -> rel cfg now j ip d cur ->
  rel cfg now j ip (db_run cfg ops d) (last_ban j ip ops cur) /\ sane_entry (last_ban j ip ops cur).
Proof.
  intros P. unfold db_run. induction ops as [|o ops IH]; intros d cur en SH W SE EN U R; [split; assumption|].
  cbn [fold_left]. rewrite last_ban_cons. inversion SH as [|? ? H1 H2]; subst. cbn [well_used] in U. destruct U as [U1 U2].
  assert (sane_history now [o]) by (constructor; auto).
  destruct (rel_step cfg now j ip d o cur en P W) as [R' SE']; auto.
  apply (IH _ _ (enabled j [o] en)); auto; [now apply wf_step|].
  intros E. now apply (has_jail_step cfg d o j en).
Qed.

(** ** strings are totally ordered *)
Lemma ascii_lt_trans a b c : Ascii.compare a b = Lt -> Ascii.compare b c = Lt -> Ascii.compare a c = Lt.
Proof. unfold Ascii.compare. rewrite !N.compare_lt_iff. lia. Qed.
Lemma compare_lt_trans : forall a b c, String.compare a b = Lt -> String.compare b c = Lt -> String.compare a c = Lt.
Proof.
  induction a as [|x a IH]; intros [|y b] [|z c]; cbn; auto; try discriminate.
  destruct (Ascii.compare x y) eqn:E1; try discriminate.
  - apply Ascii.compare_eq_iff in E1 as ->. destruct (Ascii.compare y z); auto; try discriminate. apply IH.
  - intros _. destruct (Ascii.compare y z) eqn:E2; try discriminate.
    + apply Ascii.compare_eq_iff in E2 as ->. now rewrite E1.
    + now rewrite (ascii_lt_trans x y z).
Qed.
Lemma leb_trans a b c : String.leb a b = true -> String.leb b c = true -> String.leb a c = true.
Proof.
  unfold String.leb. intros H1 H2.
  destruct (String.compare a b) eqn:E1; try discriminate; destruct (String.compare b c) eqn:E2; try discriminate.
  - apply String.compare_eq_iff in E1 as ->. now rewrite E2.
  - apply String.compare_eq_iff in E1 as ->. now rewrite E2.
  - apply String.compare_eq_iff in E2 as ->. now rewrite E1.
  - now rewrite (compare_lt_trans a b c).
Qed.

(** ** restoring *)
Definition for_ok (js : jset) (from : Z) (r : row) : bool :=
  if js_increment js then true else if js_bantime js =? -1 then true else r_time r >? from - js_bantime js.
Definition the_correct (js : jset) : option Z :=
  if js_increment js then Some (max_bantime js) else if max_bantime js =? -1 then None else Some (max_bantime js).
Definition clock_ok (bt time clk : Z) : bool :=
  let btm := if negb (bt =? -1) && (clk - time >? 0) then bt - (clk - time) else bt in
  negb (negb (btm =? -1) && (btm <=? 0)).
Definition restored_row (js : jset) (from : Z) (clock : string -> Z) (ignored : string -> bool) (r : row) : list ticket :=
  let bt := correct_bt (js_bantime js) (the_correct js) (r_bt r) in
  if eqb (r_ip r) ""%string || (negb (bt =? -1) && (r_time r + bt <=? from)) || ignored (r_ip r)
     || negb (clock_ok bt (r_time r) (clock (r_ip r)))
  then [] else [with_restored true (row_ticket (js_maxm js) bt r)].

Lemma row_ticket_fields maxm bt r : let t := row_ticket maxm bt r in
  t_id t = r_ip r /\ t_time t = r_time r /\ t_bantime t = Some bt /\ t_bancount t = Z.max 0 (r_count r)
  /\ t_failures t = r_fail r /\ get_matches t = last_n maxm (match r_matches r with Some l => l | None => [] end).
Proof.
  cbn zeta. unfold row_ticket. set (m := match r_matches r with Some l => l | None => [] end).
  assert (H : forall t, t_bancount t = 0 -> let t' := set_bancount (r_count r) false (with_bantime (Some bt) t) in
     t_id t' = t_id t /\ t_time t' = t_time t /\ t_bantime t' = Some bt /\ t_bancount t' = Z.max 0 (r_count r)
     /\ t_failures t' = t_failures t /\ get_matches t' = get_matches t).
  { intros t E. cbn zeta. unfold set_bancount. cbn [orb t_bancount with_bantime]. rewrite E.
    destruct (Z.gtb_spec (r_count r) 0); cbn; repeat split; lia. }
  assert (L0 : last_n 0 m = []) by (unfold last_n; rewrite Nat.sub_0_r; apply skipn_all).
  destruct maxm as [|mm].
  - destruct (H (set_matches [] (new_ticket (r_ip r) (r_time r) m (r_fail r))) eq_refl) as (-> & -> & -> & -> & -> & ->).
    do 5 (split; [reflexivity|]). rewrite L0. reflexivity.
  - destruct m as [|x m'] eqn:Em.
    + destruct (H (new_ticket (r_ip r) (r_time r) [] (r_fail r)) eq_refl) as (-> & -> & -> & -> & -> & ->). do 5 (split; [reflexivity|]). reflexivity.
    + destruct (Nat.ltb_spec (S mm) (length (x :: m'))) as [Hl|Hl].
      * destruct (H (set_matches (last_n (S mm) (x :: m')) (new_ticket (r_ip r) (r_time r) (x :: m') (r_fail r)))) as (-> & -> & -> & -> & -> & ->).
        { unfold set_matches. destruct (last_n (S mm) (x :: m')); reflexivity. }
        unfold set_matches. assert (N : length (last_n (S mm) (x :: m')) = S mm) by (rewrite last_n_length; lia).
        destruct (last_n (S mm) (x :: m')) eqn:E; [cbn in N; lia|]. do 5 (split; [reflexivity|]). reflexivity.
      * destruct (H (new_ticket (r_ip r) (r_time r) (x :: m') (r_fail r)) eq_refl) as (-> & -> & -> & -> & -> & ->).
        do 5 (split; [reflexivity|]). unfold last_n. replace (length (x :: m') - S mm)%nat with 0%nat by lia. reflexivity.
Qed.

Lemma restore_rows j js from clock ignored d :
  restore j js from clock ignored d
  = flat_map (restored_row js from clock ignored) (current_rows j (if js_increment js then None else Some (js_bantime js)) from d).
Proof.
  unfold restore, get_current_bans. fold (the_correct js). induction (current_rows _ _ _ _) as [|r l IH]; [reflexivity|].
  cbn [flat_map]. rewrite flat_map_app, IH. f_equal. unfold restored_row.
  destruct (eqb (r_ip r) _); [reflexivity|]. cbn [orb].
  set (bt := correct_bt _ _ _). destruct (negb (bt =? -1) && (r_time r + bt <=? from)); [reflexivity|]. cbn [orb flat_map].
  destruct (row_ticket_fields (js_maxm js) bt r) as (E1 & E2 & E3 & _). cbn zeta in *.
  unfold get_bantime. cbn [t_id with_restored t_time t_bantime]. rewrite E1, E2, E3. destruct (ignored (r_ip r)); [reflexivity|]. cbn [orb].
  unfold clock_ok. destruct (negb _ && (_ <=? 0)); cbn; reflexivity.
Qed.

Lemma current_In j fb from d r : db_wf d -> In r (current_rows j fb from d) <->
  dget (r_ip r, j) (db_bips d) = Some r /\ ((r_time r + r_bt r >? from) || (r_bt r <=? -1)) = true
  /\ match fb with None => true | Some f => if f =? -1 then true else r_time r >? from - f end = true.
Proof.
  intros ([W C] & _). unfold current_rows. rewrite In_sort_by, filter_In, !andb_true_iff, in_map_iff. split.
  - intros (([k r'] & E & I) & (Ej & H1) & H2). cbn in E. subst r'. apply eqb_true in Ej.
    pose proof (C _ _ I) as ->. rewrite Ej in I. split; [now apply In_dget|auto].
  - intros (G & H1 & H2). apply dget_In in G. pose proof (C _ _ G) as X. injection X as X.
    split; [exists ((r_ip r, j), r); auto|]. rewrite X, eqb_refl. auto.
Qed.

Lemma current_NoDup j fb from d : db_wf d -> NoDup (map r_ip (current_rows j fb from d)).
Proof.
  intros ([W C] & _). unfold current_rows.
  eapply Permutation_NoDup; [apply Permutation_map; symmetry; apply sort_by_perm|].
  set (f := fun r : row => ((r_time r + r_bt r >? from) || (r_bt r <=? -1))
      && match fb with None => true | Some f => if f =? -1 then true else r_time r >? from - f end).
  rewrite (filter_ext _ (fun r => eqb (r_jail r) j && f r)) by (intros r; unfold f; now rewrite andb_assoc).
  clearbody f.
  assert (G : forall l, dwf l -> (forall k r, In (k, r) l -> k = (r_ip r, r_jail r)) ->
     NoDup (map r_ip (filter (fun r => eqb (r_jail r) j && f r) (map snd l)))).
  { clear. induction l as [|[k r] l IH]; intros W C; [constructor|]. inversion W; subst. cbn.
    assert (IHl : NoDup (map r_ip (filter (fun r => eqb (r_jail r) j && f r) (map snd l)))) by (apply IH; [assumption|intros; apply C; now right]).
    destruct (eqb_spec (r_jail r) j) as [E|]; [|exact IHl]. cbn [andb]. destruct (f r); [|exact IHl]. cbn. constructor; [|exact IHl].
    intros I. apply in_map_iff in I as (r' & E' & I). apply filter_In in I as [I F]. apply in_map_iff in I as ([k' r''] & E'' & I).
    cbn in E''. subst r''. apply andb_true_iff in F as [F _]. apply eqb_true in F.
    apply H1. rewrite (C k r) by now left. rewrite E, <- E', <- F. apply in_map_iff. exists (k', r'). split; [|exact I].
    cbn. apply C. now right. }
  now apply G.
Qed.

Lemma skipn_add {A} b : forall a (l : list A), skipn a (skipn b l) = skipn (b + a) l.
Proof.
  induction b as [|b IH]; intros a l; [reflexivity|]. destruct l as [|x l]; [now rewrite skipn_nil|]. cbn. apply IH.
Qed.
Lemma last_n_last_n {A} a b (l : list A) : last_n a (last_n b l) = last_n (Nat.min a b) l.
Proof.
  unfold last_n. rewrite skipn_length, skipn_add. f_equal. lia.
Qed.
Lemma stored_get max m : match stored_matches max m with Some l => l | None => [] end
  = last_n max (match m with Some l => l | None => [] end).
Proof.
  destruct max as [|mm]; unfold stored_matches.
  - unfold last_n. destruct m as [[|x l]|]; cbn; [reflexivity| |reflexivity]. now rewrite skipn_all.
  - destruct m as [l|]; [|reflexivity]. destruct (Nat.ltb_spec (S mm) (length l)); [reflexivity|].
    unfold last_n. replace (length l - S mm)%nat with 0%nat by lia. reflexivity.
Qed.

Lemma correct_limited js bt : sane_jail js -> bt = -1 \/ 0 < bt ->
  correct_bt (js_bantime js) (the_correct js) bt = limited js bt.
Proof.
  intros SJ Hb. unfold correct_bt, the_correct, limited, the_limit, max_bantime.
  destruct (Z.eqb_spec bt (-2)); [lia|]. destruct SJ as [E|SJ].
  - rewrite E. destruct (js_maxtime js) as [m|]; [|reflexivity].
    destruct (Z.ltb_spec 0 m).
    + replace (negb (m =? 0) && (m >=? 0)) with true by lia. destruct (Z.eqb_spec bt (-1)); cbn; [reflexivity|].
      destruct (Z.gtb_spec bt m); lia.
    + replace (negb (m =? 0) && (m >=? 0)) with false by lia. reflexivity.
  - destruct (js_increment js).
    + destruct (js_maxtime js) as [m|]; [|reflexivity]. destruct (Z.ltb_spec 0 m).
      * replace (negb (m =? 0) && (m >=? 0)) with true by lia. destruct (Z.eqb_spec bt (-1)); cbn; [reflexivity|].
        destruct (Z.gtb_spec bt m); lia.
      * replace (negb (m =? 0) && (m >=? 0)) with false by lia. reflexivity.
    + destruct (Z.eqb_spec (js_bantime js) (-1)) as [E|E].
      * rewrite E. cbn. reflexivity.
      * destruct (Z.ltb_spec 0 (js_bantime js)); [|lia].
        replace (negb (js_bantime js =? 0) && (js_bantime js >=? 0)) with true by lia.
        destruct (Z.eqb_spec bt (-1)); cbn; [reflexivity|]. destruct (Z.gtb_spec bt (js_bantime js)); lia.
Qed.
Lemma limited_pos js bt : bt = -1 \/ 0 < bt -> limited js bt = -1 /\ bt = -1 /\ the_limit js = None \/ 0 < limited js bt /\ (bt = -1 \/ limited js bt <= bt).
Proof.
  intros H. unfold limited. destruct (the_limit js) as [m|] eqn:E.
  - assert (0 < m). { unfold the_limit in E. destruct (js_increment js).
      - destruct (js_maxtime js) as [x|]; [|discriminate]. destruct (Z.ltb_spec 0 x); [|discriminate]. injection E as <-. lia.
      - destruct (Z.ltb_spec 0 (js_bantime js)); [|discriminate]. injection E as <-. lia. }
    right. destruct (Z.eqb_spec bt (-1)); lia.
  - destruct H; [left|right]; auto. split; auto. right. lia.
Qed.

(** what a stored row gives *)
Lemma row_restored cfg j js bt0 t now clock ignored tk : sane_jail js ->
  (get_bantime bt0 t = -1 \/ 0 < get_bantime bt0 t) ->
  let r := row_of cfg j bt0 t in
  let b := limited js (get_bantime bt0 t) in
  (In r (filter (fun r => ((r_time r + r_bt r >? now) || (r_bt r <=? -1)) && for_ok js now r) [r])
   /\ In tk (restored_row js now clock ignored r))
  <-> t_id t <> ""%string /\ ignored (t_id t) = false /\ running now (t_time t) b
      /\ clock_ok b (t_time t) (clock (t_id t)) = true /\ tk = with_restored true (row_ticket (js_maxm js) b r).
Proof.
  intros SJ Hb r b. rewrite filter_In. unfold restored_row. rewrite (correct_limited js (r_bt r) SJ Hb).
  change (limited js (r_bt r)) with b. cbn [r row_of r_time r_bt r_ip].
  assert (F : running now (t_time t) b -> (((t_time t + get_bantime bt0 t >? now) || (get_bantime bt0 t <=? -1)) && for_ok js now r) = true).
  { intros R. pose proof (limited_pos js _ Hb) as L. fold b in L. unfold running in R.
    apply andb_true_iff. split; [lia|]. unfold for_ok. cbn [r row_of r_time]. unfold the_limit in L.
    destruct (js_increment js) eqn:Ei; [reflexivity|]. destruct (Z.eqb_spec (js_bantime js) (-1)); [reflexivity|].
    destruct SJ as [SJ|[SJ|SJ]]; [congruence..|]. 
    assert (b <= js_bantime js). { unfold b, limited, the_limit. rewrite Ei. destruct (Z.ltb_spec 0 (js_bantime js)); [|lia]. destruct (_ =? -1); lia. }
    destruct (Z.ltb_spec 0 (js_bantime js)); [|lia]. destruct L as [(_ & _ & L)|L]; [discriminate|]. lia. }
  assert (Run : running now (t_time t) b <-> (negb (b =? -1) && (t_time t + b <=? now)) = false).
  { unfold running. lia. }
  split.
  - intros [_ I]. destruct (eqb_spec (t_id t) ""%string); [destruct I|]. cbn [orb] in I.
    destruct (negb (b =? -1) && (t_time t + b <=? now)) eqn:E1; [destruct I|]. cbn [orb] in I.
    destruct (ignored (t_id t)) eqn:E2; [destruct I|]. cbn [orb] in I.
    destruct (clock_ok b (t_time t) (clock (t_id t))) eqn:E3; [|destruct I]. cbn in I. destruct I as [<-|[]].
    do 2 (split; [auto|]). split; [now apply Run|]. auto.
  - intros (N & Ig & R & C & ->). split; [split; [now left|now apply F]|].
    destruct (eqb_spec (t_id t) ""%string); [contradiction|]. apply Run in R. rewrite R, Ig, C. cbn. now left.
Qed.

Lemma ticket_restores cfg j js bt0 t : restores cfg js (bt0, t)
  (with_restored true (row_ticket (js_maxm js) (limited js (get_bantime bt0 t)) (row_of cfg j bt0 t))).
Proof.
  destruct (row_ticket_fields (js_maxm js) (limited js (get_bantime bt0 t)) (row_of cfg j bt0 t)) as (E1 & E2 & E3 & E4 & E5 & E6).
  cbn zeta in *. unfold restores. cbn [fst snd]. cbn [with_restored t_id t_time t_bantime t_bancount t_failures t_restored].
  rewrite E1, E2, E3, E4, E5. do 5 (split; [reflexivity|]). split; [|reflexivity].
  transitivity (get_matches (row_ticket (js_maxm js) (limited js (get_bantime bt0 t)) (row_of cfg j bt0 t))); [reflexivity|].
  rewrite E6. cbn [row_of r_matches]. rewrite stored_get. apply last_n_last_n.
Qed.

Lemma rel_init cfg now j ip : rel cfg now j ip db_init None.
Proof. left. reflexivity. Qed.

(** ** the whole: restored tickets and the history *)
Section Restore.
Variables (cfg : settings) (js : jset) (j : string) (ops : list db_op) (now : Z).
Hypothesis SC : sane_settings cfg.
Hypothesis SJ : sane_jail js.
Hypothesis SH : sane_history now ops.
Hypothesis WU : well_used j ops false.
Variables (clock : string -> Z) (ignored : string -> bool).
Let d := db_run cfg ops db_init.
Let q := restore j js now clock ignored d.

Lemma hist ip : rel cfg now j ip d (last_ban j ip ops None) /\ sane_entry (last_ban j ip ops None).
Proof.
  apply (rel_run cfg now j ip ops SC db_init None false SH wf_init I); [discriminate|exact WU|apply rel_init].
Qed.
Lemma d_wf : db_wf d.
Proof. apply wf_run, wf_init. Qed.

Lemma for_ok_eq r : match (if js_increment js then None else Some (js_bantime js)) with
    None => true | Some f => if f =? -1 then true else r_time r >? now - f end = for_ok js now r.
Proof. unfold for_ok. now destruct (js_increment js). Qed.

Lemma restored_In tk : In tk q <-> exists e, last_ban j (t_id tk) ops None = Some e /\ t_id (snd e) = t_id tk /\
  t_id tk <> ""%string /\ ignored (t_id tk) = false /\
  running now (t_time (snd e)) (limited js (get_bantime (fst e) (snd e))) /\
  clock_ok (limited js (get_bantime (fst e) (snd e))) (t_time (snd e)) (clock (t_id tk)) = true /\
  tk = with_restored true (row_ticket (js_maxm js) (limited js (get_bantime (fst e) (snd e))) (row_of cfg j (fst e) (snd e))).
Proof.
  unfold q. rewrite restore_rows, in_flat_map. split.
  - intros (r & I & T). apply current_In in I as (G & H1 & H2); [|apply d_wf]. rewrite for_ok_eq in H2.
    destruct (hist (r_ip r)) as [R SE]. destruct (last_ban j (r_ip r) ops None) as [[bt0 t]|] eqn:El.
    + destruct R as [R|[R _]]; [|congruence]. rewrite G in R. injection R as R.
      destruct (row_restored cfg j js bt0 t now clock ignored tk SJ SE) as [X _]. cbn zeta in X.
      rewrite <- R in X. cbn [fst snd] in *. destruct X as (N & Ig & Ru & C & Et).
      { split; [|exact T]. apply filter_In. split; [now left|]. now rewrite H1, H2. }
      assert (Hid : t_id tk = t_id t).
      { pose proof (ticket_restores cfg j js bt0 t) as (E & _). rewrite <- R in E. rewrite <- Et in E. exact E. }
      assert (Hip : r_ip r = t_id t) by (rewrite R; reflexivity).
      rewrite Hid, <- Hip, El. exists (bt0, t). cbn [fst snd]. rewrite <- R, Hip. do 6 (split; [auto|]). exact Et.
    + destruct R as [R|[_ (e & X & _)]]; [|discriminate]. rewrite G in R. discriminate.
  - intros ([bt0 t] & El & Hid & N & Ig & Ru & C & Et). cbn [fst snd] in *.
    destruct (hist (t_id tk)) as [R SE]. rewrite El in R, SE. cbn [sane_entry fst snd] in SE.
    assert (G : dget (t_id tk, j) (db_bips d) = Some (row_of cfg j bt0 t)).
    { destruct R as [R|(_ & e & X & Y)]; [exact R|]. injection X as <-. unfold over in Y. cbn in Y.
      pose proof (limited_pos js _ SE). unfold running in Ru. lia. }
    exists (row_of cfg j bt0 t).
    destruct (row_restored cfg j js bt0 t now clock ignored tk SJ SE) as [_ X]. cbn zeta in X.
    rewrite Hid in X. destruct X as (I1 & I2); [do 4 (split; [assumption|]); assumption|].
    split; [|exact I2]. apply filter_In in I1 as [_ I1]. apply andb_true_iff in I1 as [H1 H2].
    apply current_In; [apply d_wf|]. cbn [row_of r_ip]. rewrite Hid, for_ok_eq. auto.
Qed.

Lemma restored_row_id r tk : In tk (restored_row js now clock ignored r) -> t_id tk = r_ip r.
Proof.
  unfold restored_row. destruct (_ || _); [intros []|]. intros [<-|[]].
  destruct (row_ticket_fields (js_maxm js) (correct_bt (js_bantime js) (the_correct js) (r_bt r)) r) as (E & _). exact E.
Qed.
Lemma restored_row_le1 r : restored_row js now clock ignored r = [] \/ exists tk, restored_row js now clock ignored r = [tk] /\ t_id tk = r_ip r.
Proof.
  pose proof (restored_row_id r) as H. unfold restored_row in *. destruct (_ || _); [now left|]. right. eexists. split; [reflexivity|].
  apply H. now left.
Qed.
Lemma restored_ids l : incl (map t_id (flat_map (restored_row js now clock ignored) l)) (map r_ip l).
Proof.
  induction l as [|r l IH]; [easy|]. cbn [flat_map]. rewrite map_app. apply incl_app; [|now apply incl_tl].
  destruct (restored_row_le1 r) as [->|(tk & -> & E)]; [easy|]. intros x [<-|[]]. left. auto.
Qed.
Lemma restored_NoDup : NoDup (map t_id q).
Proof.
  unfold q. rewrite restore_rows. pose proof (current_NoDup j (if js_increment js then None else Some (js_bantime js)) now d d_wf) as ND.
  induction (current_rows _ _ _ _) as [|r l IH]; [constructor|]. cbn [flat_map map] in *. inversion ND as [|? ? Hn Hl]; subst.
  rewrite map_app. destruct (restored_row_le1 r) as [->|(tk & -> & E)]; [now apply IH|]. cbn. constructor; [|now apply IH].
  rewrite E. intros I. apply Hn. now apply restored_ids.
Qed.
Lemma restored_sorted : StronglySorted (fun a b => String.leb (t_id a) (t_id b) = true) q.
Proof.
  unfold q. rewrite restore_rows.
  assert (S : StronglySorted (fun a b => ip_order a b = true) (current_rows j (if js_increment js then None else Some (js_bantime js)) now d)).
  { apply Sorted_StronglySorted; [intros a b c; apply leb_trans|]. apply sort_by_sorted, ip_order_total. }
  induction S as [|r l S IH H]; cbn [flat_map]; [constructor|].
  destruct (restored_row_le1 r) as [->|(tk & -> & E)]; [exact IH|]. cbn. constructor; [exact IH|].
  apply Forall_forall. intros x I. apply (in_map t_id) in I. apply restored_ids in I. apply in_map_iff in I as (r' & E' & I).
  rewrite Forall_forall in H. specialize (H r' I). unfold ip_order in H. rewrite E, <- E'. exact H.
Qed.
End Restore.

(** ** history of bans *)
Definition jail_ip (j ip : string) (r : row) : bool := eqb (r_jail r) j && eqb (r_ip r) ip.
Lemma all_bans_cons age j ip o ops cur : all_bans age j ip (o :: ops) cur = all_bans age j ip ops (all_bans age j ip [o] cur).
Proof. destruct o; reflexivity. Qed.

Lemma filter_comm {A} (f g : A -> bool) l : filter f (filter g l) = filter g (filter f l).
Proof. rewrite !filter_filter_and. apply filter_ext. intros. apply andb_comm. Qed.
Lemma filter_all {A} (f : A -> bool) l : (forall x, In x l -> f x = true) -> filter f l = l.
Proof. induction l as [|x l IH]; intros H; cbn; [reflexivity|]. rewrite H by now left. f_equal. apply IH. intros; apply H; now right. Qed.
Lemma filter_nil {A} (f : A -> bool) l : (forall x, In x l -> f x = false) -> filter f l = [].
Proof. induction l as [|x l IH]; intros H; cbn; [reflexivity|]. rewrite H by now left. apply IH. intros; apply H; now right. Qed.
Lemma map_filter_comm {A B} (h : A -> B) (f : B -> bool) l : filter f (map h l) = map h (filter (fun x => f (h x)) l).
Proof. induction l as [|x l IH]; cbn; [reflexivity|]. rewrite IH. now destruct (f (h x)). Qed.

Lemma bans_step cfg j ip d o en cur : db_wf d -> (en = true -> has_jail j d) ->
  (match o with DAddBan j' _ _ => if eqb j j' then en = true else True | _ => True end) ->
  filter (jail_ip j ip) (db_bans d) = map (fun e => row_of cfg j (fst e) (snd e)) cur ->
  filter (jail_ip j ip) (db_bans (db_step cfg d o)) = map (fun e => row_of cfg j (fst e) (snd e)) (all_bans (purgeAge cfg) j ip [o] cur).
Proof.
  intros W EN U H. destruct o; cbn [db_step all_bans]; try exact H.
  - unfold del_jail. destruct (dmem _ _); exact H.
  - unfold add_ban. cbn [with_cache db_jails]. destruct (eqb_spec j j0) as [->|N].
    + specialize (EN U). unfold has_jail in EN. unfold dmem. rewrite EN. cbn [fst with_bips with_bans db_bans with_cache].
      rewrite filter_app, H. cbn [filter]. unfold jail_ip. cbn [r_jail r_ip]. rewrite eqb_refl. cbn [andb]. rewrite (eqb_sym (t_id t)).
      destruct (eqb ip (t_id t)); [now rewrite map_app|now rewrite app_nil_r].
    + cbn [andb]. destruct (dmem j0 _); cbn [fst with_bips with_bans db_bans with_cache]; [|exact H].
      rewrite filter_app, H. cbn [filter]. unfold jail_ip at 1. cbn [r_jail]. destruct (eqb_spec j0 j); [congruence|]. cbn. now rewrite app_nil_r.
  - rewrite del_ban_bans. rewrite filter_comm, H.
    destruct (eqb_spec j j0) as [->|N]; cbn [andb].
    + destruct (match ips with [] => true | _ => inb ip ips end) eqn:E.
      * apply filter_nil. intros r I. rewrite <- H in I. apply filter_In in I as [_ I]. apply andb_true_iff in I as [I1 I2].
        apply eqb_true in I1 as ->. apply eqb_true in I2 as ->. now rewrite eqb_refl, E.
      * apply filter_all. intros r I. rewrite <- H in I. apply filter_In in I as [_ I]. apply andb_true_iff in I as [I1 I2].
        apply eqb_true in I1 as ->. apply eqb_true in I2 as ->. now rewrite eqb_refl, E.
    + apply filter_all. intros r I. rewrite <- H in I. apply filter_In in I as [_ I]. apply andb_true_iff in I as [I1 I2].
      apply eqb_true in I1 as ->. destruct (eqb_spec j j0); [congruence|reflexivity].
  - unfold purge. cbn [with_logs with_jails with_bips with_bans with_cache db_bans]. rewrite filter_comm, H, map_filter_comm. f_equal.
    apply filter_ext. intros e. cbn [row_of r_time]. lia.
  - unfold add_log. destruct (dget (j0, path) (db_logs d)) as [[[f|] p]|]; cbn; try exact H;
      destruct (negb _ || _); cbn; try exact H; destruct (dmem j0 _); cbn; exact H.
  - unfold update_log. destruct (_ || _); cbn; exact H.
  - unfold get_bans_merged. destruct (match bantime with None => true | Some b => b <? 0 end); [|exact H].
    destruct (dget _ (db_cache d)); cbn; exact H.
Qed.
Lemma bans_run cfg j ip ops : forall d en cur, db_wf d -> (en = true -> has_jail j d) -> well_used j ops en ->
  filter (jail_ip j ip) (db_bans d) = map (fun e => row_of cfg j (fst e) (snd e)) cur ->
  filter (jail_ip j ip) (db_bans (db_run cfg ops d)) = map (fun e => row_of cfg j (fst e) (snd e)) (all_bans (purgeAge cfg) j ip ops cur).
Proof.
  unfold db_run. induction ops as [|o ops IH]; intros d en cur W EN U H; [exact H|].
  cbn [fold_left]. rewrite all_bans_cons. cbn [well_used] in U. destruct U as [U1 U2].
  apply (IH _ (enabled j [o] en)); auto; [now apply wf_step| |now apply (bans_step cfg j ip d o en)].
  intros E. now apply (has_jail_step cfg d o j en).
Qed.

(** ** purge *)
Lemma purge_current cfg j fb from now d : sane_settings cfg -> now <= from ->
  (forall k r, In (k, r) (db_bips d) -> r_bt r = -1 \/ 0 < r_bt r) ->
  current_rows j fb from (purge cfg now d) = current_rows j fb from d.
Proof.
  intros [P1 P2] Hn S. unfold current_rows, purge. cbn [with_logs with_jails with_bips with_bans with_cache db_bips]. f_equal.
  induction (db_bips d) as [|[k r] l IH]; [reflexivity|].
  assert (IHl := IH (fun k' r' I => S k' r' (or_intror I))). clear IH. specialize (S k r (or_introl eq_refl)).
  cbn [filter map snd]. match goal with |- context [if negb ?b then _ else _] => destruct b eqn:E end; cbn [negb].
  - rewrite IHl. cbn [filter]. replace ((r_time r + r_bt r >? from) || (r_bt r <=? -1)) with false; [now rewrite andb_false_r|].
    symmetry. apply orb_false_iff. split; [|lia]. nia.
  - cbn [map snd filter]. rewrite IHl. reflexivity.
Qed.

(** ** getBan over all jails *)
Lemma fold_zsum l : fold_right Z.add 0 l = zsum l.
Proof. induction l as [|x l IH]; cbn; [reflexivity|now rewrite IH]. Qed.
Lemma zsum_perm a b : Permutation a b -> zsum a = zsum b.
Proof. induction 1; cbn; lia. Qed.
Lemma zsum_zero {A} (f : A -> Z) l : (forall x, In x l -> f x = 0) -> zsum (map f l) = 0.
Proof. induction l as [|x l IH]; intros H; cbn; [reflexivity|]. rewrite (H x) by now left. rewrite IH; [reflexivity|]. intros; apply H; now right. Qed.

Definition jail_row (ip j : string) (d : db) : option row := dget (ip, j) (db_bips d).

(** the sum over a list of jails covering all the rows of the ID *)
Lemma sum_rows (f : row -> Z) ip (js : list string) : forall l, bips_ok l -> NoDup js ->
  (forall k r, In (k, r) l -> fst k = ip -> In (snd k) js) ->
  zsum (map (fun kv => f (snd kv)) (filter (fun kv => eqb (fst (fst kv)) ip) l))
  = zsum (map (fun j => match dget (ip, j) l with Some r => f r | None => 0 end) js).
Proof.
  induction l as [|[[i j] r] l IH]; intros [W C] ND H; cbn [filter map].
  - symmetry. apply zsum_zero. reflexivity.
  - inversion W as [|? ? Hn Hl]; subst.
    assert (OK : bips_ok l) by (split; [exact Hl|intros; apply C; now right]).
    assert (Hl' : forall k r0, In (k, r0) l -> fst k = ip -> In (snd k) js) by (intros k r0 I; apply (H k r0); now right).
    specialize (IH OK ND Hl'). cbn [fst snd] in *. destruct (eqb_spec i ip) as [->|N].
    + cbn [map zsum]. rewrite IH.
      assert (Hj : In j js) by (apply (H (ip, j) r); [now left|reflexivity]).
      apply in_split in Hj as (a & b & ->).
      assert (Nj : ~ In j (a ++ b)) by (apply NoDup_remove_2 in ND; exact ND).
      assert (G0 : dget (ip, j) l = None).
      { apply dget_None. exact Hn. }
      assert (G : forall j', j' <> j -> dget (ip, j') (((ip, j), r) :: l) = dget (ip, j') l).
      { intros j' N. cbn. destruct (eqb_spec (ip, j') (ip, j)) as [E|]; [injection E; congruence|reflexivity]. }
      rewrite !map_app. cbn [map].
      assert (M : forall l0, (forall x, In x l0 -> x <> j) ->
        map (fun j' => match dget (ip, j') (((ip, j), r) :: l) with Some r0 => f r0 | None => 0 end) l0
        = map (fun j' => match dget (ip, j') l with Some r0 => f r0 | None => 0 end) l0).
      { intros l0 HH. apply map_ext_in. intros x I. now rewrite G by auto. }
      rewrite !M by (intros x I ->; apply Nj, in_or_app; auto). rewrite G0.
      replace (dget (ip, j) (((ip, j), r) :: l)) with (Some r) by (cbn; destruct (eqb_spec (ip, j) (ip, j)); congruence).
      assert (Z1 : forall a b, zsum (a ++ b) = zsum a + zsum b) by (clear; induction a; intros; cbn; [reflexivity|rewrite IHa; lia]).
      rewrite !Z1. cbn. lia.
    + rewrite IH. f_equal. apply map_ext. intros j'. cbn. destruct (eqb_spec (ip, j') (i, j)) as [E|]; [injection E; congruence|reflexivity].
Qed.

Lemma fold_max_spec x l : let m := fold_right Z.max x l in (m = x \/ In m l) /\ x <= m /\ forall y, In y l -> y <= m.
Proof.
  induction l as [|y l IH]; cbn; [split; [now left|split; [lia|intros ? []]]|]. cbn zeta in IH. destruct IH as (A & B & C).
  split; [|split; [lia|intros z [<-|I]; [lia|specialize (C _ I); lia]]].
  destruct (Z.max_spec y (fold_right Z.max x l)) as [[_ ->]|[_ ->]]; [tauto|auto].
Qed.

Lemma last_n_app_right {A} max (a c : list A) : (max <= length c)%nat -> last_n max (a ++ c) = last_n max c.
Proof.
  intros H. unfold last_n. rewrite app_length, skipn_app.
  rewrite skipn_all2 by lia. cbn. f_equal. lia.
Qed.
Lemma last_n_app_last {A} max (a b : list A) : last_n max (a ++ last_n max b) = last_n max (a ++ b).
Proof.
  destruct (Nat.le_gt_cases max (length b)).
  - rewrite !last_n_app_right by (rewrite ?last_n_length; lia). rewrite last_n_last_n. f_equal. lia.
  - unfold last_n at 2. replace (length b - max)%nat with 0%nat by lia. reflexivity.
Qed.

Lemma last_dflt {A} (l : list A) : forall z a b, last (z :: l) a = last (z :: l) b.
Proof. induction l as [|y l IH]; intros z a b; [reflexivity|]. change (last (y :: l) a = last (y :: l) b). apply IH. Qed.

(** ** merged bans *)
Definition mats (r : row) : list string := match r_matches r with Some l => l | None => [] end.
Lemma merge_one max ip rows : (forall r, In r rows -> r_ip r = ip) -> forall g, m_ip g = ip -> (length (m_matches g) <= max)%nat ->
  exists t, merge_rows max rows (Some g) = [mkMerged ip t (m_fail g + zsum (map r_fail rows))
     (last_n max (concat (map mats (rev rows)) ++ m_matches g))]
    /\ t = last (map r_time rows) (m_time g).
Proof.
  induction rows as [|r rows IH]; intros H g Eg L.
  - cbn. exists (m_time g). split; [|reflexivity]. f_equal. destruct g as [gi gt gf gm]. cbn in *. subst gi. f_equal; [lia|].
    unfold last_n. replace (length gm - max)%nat with 0%nat by lia. reflexivity.
  - cbn [merge_rows]. rewrite (H r) by now left. rewrite Eg, eqb_refl.
    set (g' := mkMerged ip (r_time r) (m_fail g + r_fail r)
      (if Nat.ltb 0 (max - length (m_matches g))
       then (if Nat.leb (length (mats r)) (max - length (m_matches g)) then mats r else last_n (max - length (m_matches g)) (mats r)) ++ m_matches g
       else m_matches g)).
    assert (Em : m_matches g' = last_n max (mats r ++ m_matches g)).
    { unfold g'. cbn [m_matches]. destruct (Nat.ltb_spec 0 (max - length (m_matches g))).
      - destruct (Nat.leb_spec (length (mats r)) (max - length (m_matches g))).
        + unfold last_n. rewrite app_length. replace (_ + _ - max)%nat with 0%nat by lia. reflexivity.
        + unfold last_n. rewrite app_length, skipn_app. f_equal.
          * f_equal. lia.
          * replace (_ + _ - max - _)%nat with 0%nat by lia. reflexivity.
      - unfold last_n. rewrite app_length, skipn_app. replace (length (mats r) + length (m_matches g) - max)%nat with (length (mats r)) by lia.
        rewrite skipn_all, Nat.sub_diag. reflexivity. }
    destruct (IH (fun r' I => H r' (or_intror I)) g' eq_refl) as (t & E & Et).
    { rewrite Em, last_n_length. lia. }
    exists t. fold (mats r). fold g'. rewrite E. split.
    + f_equal. f_equal; [unfold g'; cbn; lia|]. rewrite Em. cbn [rev]. rewrite map_app, concat_app. cbn [map concat]. rewrite app_nil_r, <- app_assoc.
      generalize (concat (map mats (rev rows))) (mats r ++ m_matches g). clear. intros a b.
      apply last_n_app_last.
    + rewrite Et. cbn [map last]. destruct (map r_time rows) eqn:Er; [destruct rows; [reflexivity|discriminate]|]. apply last_dflt.
Qed.

Lemma merge_all max ip rows : rows <> [] -> (forall r, In r rows -> r_ip r = ip) ->
  merge_rows max rows None = [mkMerged ip (last (map r_time rows) 0) (zsum (map r_fail rows)) (last_n max (concat (map mats (rev rows))))].
Proof.
  intros N H. destruct rows as [|r rows]; [congruence|].
  assert (E : merge_rows max (r :: rows) None = merge_rows max (r :: rows) (Some (mkMerged ip (r_time r) 0 []))).
  { cbn [merge_rows m_ip m_fail m_matches]. rewrite (H r) by now left. now rewrite eqb_refl. }
  rewrite E. destruct (merge_one max ip (r :: rows) H (mkMerged ip (r_time r) 0 []) eq_refl) as (t & -> & ->); [cbn; lia|].
  cbn [m_fail m_matches m_time]. rewrite app_nil_r. f_equal. f_equal. cbn [map]. apply last_dflt.
Qed.

(** ** the cache of merged bans *)
Definition fresh_merged cfg ip jail (d : db) : list merged := merge_rows (maxMatches cfg) (get_bans jail None ip 0 d) None.
Definition coherent cfg (d : db) : Prop :=
  forall ip jail v, dget (Some ip, jail) (db_cache d) = Some v -> v = fresh_merged cfg (Some ip) jail d.

Lemma fresh_bans cfg ip jail d d' : filter (fun r => opt_is jail (r_jail r) && opt_is ip (r_ip r)) (db_bans d)
  = filter (fun r => opt_is jail (r_jail r) && opt_is ip (r_ip r)) (db_bans d') -> fresh_merged cfg ip jail d = fresh_merged cfg ip jail d'.
Proof.
  intros H. unfold fresh_merged, get_bans. f_equal. f_equal.
  rewrite (filter_ext _ (fun r => opt_is jail (r_jail r) && opt_is ip (r_ip r))) by (intros; now rewrite andb_true_r).
  rewrite H. apply filter_ext. intros. now rewrite andb_true_r.
Qed.

Lemma get_bans_now jail ip now d b : match b with None => true | Some b => b <? 0 end = true -> get_bans jail b ip now d = get_bans jail None ip 0 d.
Proof.
  intros H. unfold get_bans. f_equal. apply filter_ext. intros r. destruct b as [b|]; [|reflexivity].
  destruct (Z.geb_spec b 0); [lia|reflexivity].
Qed.

Lemma dwf_cache_free {K V} `{EqB K} (k : K) (l : dict K V) k' v : dget k' (ddel k l) = Some v -> k' <> k -> dget k' l = Some v.
Proof. intros G N. rewrite dget_ddel_other in G by congruence. exact G. Qed.

Definition cache_wf (d : db) : Prop := dwf (db_cache d).
Lemma cache_wf_step cfg d o : cache_wf d -> cache_wf (db_step cfg d o).
Proof.
  unfold cache_wf. intros W. destruct o; cbn [db_step]; auto.
  - unfold del_jail. destruct (dmem _ _); exact W.
  - apply dwf_nil.
  - unfold add_ban. cbn [with_cache db_jails]. destruct (dmem j _); cbn; now repeat apply dwf_ddel.
  - now destruct (del_ban_frame j ips d) as (_ & _ & ->).
  - apply dwf_nil.
  - unfold add_log. destruct (dget (j, path) (db_logs d)) as [[[f|] p]|]; cbn; try exact W;
      destruct (negb _ || _); cbn; try exact W; destruct (dmem j _); cbn; exact W.
  - unfold update_log. destruct (_ || _); cbn; exact W.
  - unfold get_bans_merged. destruct (match bantime with None => true | Some b => b <? 0 end); [|exact W].
    destruct (dget _ (db_cache d)); cbn; [exact W|now apply dwf_dset].
Qed.

Lemma coherent_step cfg d o : is_del o = false -> cache_wf d -> coherent cfg d -> coherent cfg (db_step cfg d o).
Proof.
  intros ND W H. destruct o; cbn [db_step]; try discriminate; try exact H.
  - unfold del_jail. destruct (dmem _ _); exact H.
  - (* add *) intros ip jail v G. unfold add_ban in *. cbn [with_cache db_jails] in *.
    assert (G0 : dget (Some ip, jail) (ddel (Some (t_id t), None) (ddel (Some (t_id t), Some j) (db_cache d))) = Some v)
      by (destruct (dmem j (db_jails d)); exact G). clear G.
    assert (W1 : dwf (ddel (Some (t_id t), Some j) (db_cache d))) by now apply dwf_ddel.
    assert (N1 : (Some ip, jail) <> (Some (t_id t), None)).
    { intros E. rewrite E, dget_ddel_same in G0 by exact W1. discriminate. }
    rewrite dget_ddel_other in G0 by congruence.
    assert (N2 : (Some ip, jail) <> (Some (t_id t), Some j)).
    { intros E. rewrite E, dget_ddel_same in G0 by exact W. discriminate. }
    rewrite dget_ddel_other in G0 by congruence. rewrite (H _ _ _ G0). apply fresh_bans.
    destruct (dmem j (db_jails d)); cbn [fst with_bips with_bans db_bans with_cache]; [|reflexivity].
    rewrite filter_app. cbn [filter r_jail r_ip]. unfold opt_is. destruct jail as [j'|].
    + destruct (eqb_spec j' j) as [->|]; cbn [andb]; [|now rewrite app_nil_r].
      destruct (eqb_spec ip (t_id t)); [congruence|]. now rewrite app_nil_r.
    + cbn [andb]. destruct (eqb_spec ip (t_id t)); [congruence|]. now rewrite app_nil_r.
  - unfold add_log. destruct (dget (j, path) (db_logs d)) as [[[f|] p]|]; cbn; try exact H;
      destruct (negb _ || _); cbn; try exact H; destruct (dmem j _); cbn; exact H.
  - unfold update_log. destruct (_ || _); cbn; exact H.
  - unfold get_bans_merged. destruct (match bantime with None => true | Some b => b <? 0 end) eqn:Eb; [|exact H].
    destruct (dget (ip, jail) (db_cache d)) eqn:Ec; [exact H|]. intros ip' jail' v G. cbn [fst with_cache db_cache] in G.
    destruct (eqb_spec (Some ip', jail') (ip, jail)) as [E|N].
    + injection E as <- <-. rewrite dget_dset_same in G. injection G as <-. unfold fresh_merged. rewrite get_bans_now by exact Eb. reflexivity.
    + rewrite dget_dset_other in G by congruence. rewrite (H _ _ _ G). reflexivity.
Qed.
Lemma coherent_run cfg ops : Forall (fun o => is_del o = false) ops -> forall d, cache_wf d -> coherent cfg d -> coherent cfg (db_run cfg ops d).
Proof.
  unfold db_run. induction 1 as [|o ops N _ IH]; intros d W H; cbn [fold_left]; auto.
  apply IH; [now apply cache_wf_step|now apply coherent_step].
Qed.

(** ** logs *)
Lemma last_log_cons j p o ops cur : last_log j p (o :: ops) cur = last_log j p ops (last_log j p [o] cur).
Proof. destruct o; reflexivity. Qed.
Lemma log_step cfg j p d o en : db_wf d -> (en = true -> has_jail j d) -> logs_used j [o] en ->
  dget (j, p) (db_logs (db_step cfg d o)) = last_log j p [o] (dget (j, p) (db_logs d)).
Proof.
  intros (B & J & L & C) EN [U _]. destruct o; cbn [db_step last_log]; try reflexivity.
  - unfold del_jail. destruct (dmem _ _); reflexivity.
  - unfold add_ban. cbn [with_cache db_jails]. destruct (dmem _ _); reflexivity.
  - now destruct (del_ban_frame j0 ips d) as (_ & -> & _).
  - unfold purge. cbn [with_logs with_jails with_bips with_bans with_cache db_logs db_jails]. rewrite dget_filter by exact L.
    destruct (dget (j, p) (db_logs d)) as [x|] eqn:G; [|reflexivity]. cbn [fst].
    match goal with |- (if negb (inb j ?l) then _ else _) = _ => destruct (inb j l) eqn:E end; [|reflexivity].
    exfalso. apply inb_In, in_map_iff in E as ([j' e] & Ej & I). cbn in Ej. subst j'. apply filter_In in I as [I K].
    specialize (EN U). unfold has_jail in EN. apply (In_dget _ _ _ J) in I. rewrite EN in I. injection I as <-. discriminate.
  - unfold add_log. destruct (eqb_spec j j0) as [->|N].
    + specialize (EN U). unfold has_jail in EN. assert (M : dmem j0 (db_jails d) = true) by (unfold dmem; now rewrite EN).
      destruct (eqb_spec p path) as [->|N]; cbn [andb].
      * destruct (dget (j0, path) (db_logs d)) as [[[f|] q]|] eqn:G; cbn [fst]; [exact G| |];
          (destruct (negb (pos =? 0) || _); [rewrite M; cbn [fst with_logs db_logs]; apply dget_dset_same|exact G]).
      * destruct (dget (j0, path) (db_logs d)) as [[[f|] q]|] eqn:G; cbn [fst]; [reflexivity| |];
          (destruct (negb (pos =? 0) || _); [rewrite M; cbn [fst with_logs db_logs]; apply dget_dset_other; congruence|reflexivity]).
    + cbn [andb]. destruct (dget (j0, path) (db_logs d)) as [[[f|] q]|] eqn:G; cbn [fst]; [reflexivity| |];
          (destruct (negb (pos =? 0) || _); [|reflexivity]; destruct (dmem j0 _); [|reflexivity]; cbn [fst with_logs db_logs]; apply dget_dset_other; congruence).
  - unfold update_log. destruct (eqb_spec j j0) as [->|N].
    + specialize (EN U). unfold has_jail in EN. assert (M : dmem j0 (db_jails d) = true) by (unfold dmem; now rewrite EN).
      rewrite M, orb_true_r. cbn [fst with_logs db_logs]. destruct (eqb_spec p path) as [->|N]; cbn [andb]; [apply dget_dset_same|apply dget_dset_other; congruence].
    + cbn [andb]. destruct (_ || _); [|reflexivity]. cbn [fst with_logs db_logs]. apply dget_dset_other; congruence.
  - unfold get_bans_merged. destruct (match bantime with None => true | Some b => b <? 0 end); [|reflexivity].
    destruct (dget _ (db_cache d)); reflexivity.
Qed.
Lemma log_run cfg j p ops : forall d en, db_wf d -> (en = true -> has_jail j d) -> logs_used j ops en ->
  dget (j, p) (db_logs (db_run cfg ops d)) = last_log j p ops (dget (j, p) (db_logs d)).
Proof.
  unfold db_run. induction ops as [|o ops IH]; intros d en W EN U; [reflexivity|]. cbn [fold_left]. rewrite last_log_cons.
  cbn [logs_used] in U. destruct U as [U1 U2]. rewrite <- (log_step cfg j p d o en W EN) by (split; [exact U1|exact I]).
  apply (IH _ (enabled j [o] en)); auto; [now apply wf_step|]. intros E. now apply (has_jail_step cfg d o j en).
Qed.
Lemma enabled_has cfg j ops : forall d en, db_wf d -> (en = true -> has_jail j d) -> enabled j ops en = true -> has_jail j (db_run cfg ops d).
Proof.
  unfold db_run. induction ops as [|o ops IH]; intros d en W EN E; [now apply EN|]. cbn [fold_left]. rewrite enabled_cons in E.
  apply (IH _ (enabled j [o] en)); auto; [now apply wf_step|]. intros E'. now apply (has_jail_step cfg d o j en).
Qed.

(** ** choosing rows and sorting *)
Lemma filter_perm {A} (f : A -> bool) l l' : Permutation l l' -> Permutation (filter f l) (filter f l').
Proof.
  induction 1; cbn; auto.
  - destruct (f x); auto.
  - destruct (f x), (f y); auto. apply perm_swap.
  - etransitivity; eauto.
Qed.
Lemma filter_and {A} (f g : A -> bool) l : filter f (filter g l) = filter (fun x => g x && f x) l.
Proof. induction l as [|x l IH]; [reflexivity|]. cbn. destruct (g x); cbn; [|exact IH]. destruct (f x); now rewrite IH. Qed.

Lemma ban_order_trans a b c : ban_order a b = true -> ban_order b c = true -> ban_order a c = true.
Proof.
  unfold ban_order, String.ltb. intros H1 H2. apply orb_true_iff in H1, H2. apply orb_true_iff.
  destruct H1 as [H1|H1], H2 as [H2|H2].
  - left. destruct (String.compare (r_ip a) (r_ip b)) eqn:E1; try discriminate. destruct (String.compare (r_ip b) (r_ip c)) eqn:E2; try discriminate.
    now rewrite (compare_lt_trans _ _ _ E1 E2).
  - apply andb_true_iff in H2 as [H2 _]. apply eqb_true in H2. rewrite <- H2. now left.
  - apply andb_true_iff in H1 as [H1 _]. apply eqb_true in H1. rewrite H1. now left.
  - apply andb_true_iff in H1 as [H1 T1], H2 as [H2 T2]. apply eqb_true in H1, H2. right. rewrite H1, H2, eqb_refl. cbn. lia.
Qed.
Lemma insert_first {A} (le : A -> A -> bool) x l : (forall y, In y l -> le x y = true) -> insert_by le x l = x :: l.
Proof. destruct l as [|y l]; [reflexivity|]. intros H. cbn. rewrite H; [reflexivity|now left]. Qed.
Lemma filter_insert (f : row -> bool) x l : StronglySorted (fun a b => ban_order a b = true) l ->
  filter f (insert_by ban_order x l) = if f x then insert_by ban_order x (filter f l) else filter f l.
Proof.
  induction 1 as [|y l S IH F]; cbn; [reflexivity|]. destruct (ban_order x y) eqn:E; cbn.
  - destruct (f x); [|reflexivity]. rewrite insert_first; [destruct (f y); reflexivity|]. intros z I.
    assert (I' : In z (y :: l)) by (destruct (f y); [destruct I as [<-|I]; [now left|]|]; right; apply filter_In in I; tauto).
    destruct I' as [<-|I']; [exact E|]. rewrite Forall_forall in F. eapply ban_order_trans; eauto.
  - rewrite IH. destruct (f y); destruct (f x); cbn; rewrite ?E; reflexivity.
Qed.
Lemma filter_sort (f : row -> bool) l : filter f (sort_by ban_order l) = sort_by ban_order (filter f l).
Proof.
  induction l as [|x l IH]; [reflexivity|]. cbn [sort_by fold_right]. change (fold_right (insert_by ban_order) [] l) with (sort_by ban_order l).
  rewrite filter_insert.
  - rewrite IH. cbn [filter]. destruct (f x); reflexivity.
  - apply Sorted_StronglySorted; [intros a b c; apply ban_order_trans|]. apply sort_by_sorted, ban_order_total.
Qed.

(** ** merging all IDs *)
Definition in_group (ip : string) (m : merged) : bool := eqb (m_ip m) ip.
Lemma merge_filter max ip rows : StronglySorted (fun a b => ban_order a b = true) rows ->
  forall cur, (forall g, cur = Some g -> exists r0, r_ip r0 = m_ip g /\ Forall (fun r => ban_order r0 r = true) rows) ->
  filter (in_group ip) (merge_rows max rows cur)
  = merge_rows max (filter (fun r => eqb (r_ip r) ip) rows) (match cur with Some g => if in_group ip g then Some g else None | None => None end).
Proof.
  induction 1 as [|r rows S IH F]; intros cur Hc.
  - cbn. destruct cur as [g|]; [|reflexivity]. cbn. destruct (in_group ip g); reflexivity.
  - cbn [merge_rows filter].
    set (m := match r_matches r with Some l => l | None => [] end).
    set (grow := fun g : merged => mkMerged (r_ip r) (r_time r) (m_fail g + r_fail r)
          (if Nat.ltb 0 (max - length (m_matches g))
           then (if Nat.leb (length m) (max - length (m_matches g)) then m else last_n (max - length (m_matches g)) m) ++ m_matches g
           else m_matches g)).
    set (empty := mkMerged (r_ip r) (r_time r) 0 []).
    assert (Hg : forall g0, (forall g, Some (grow g0) = Some g -> exists r0, r_ip r0 = m_ip g /\ Forall (fun r => ban_order r0 r = true) rows)).
    { intros g0 g Q. injection Q as <-. exists r. split; [reflexivity|exact F]. }
    destruct cur as [g|].
    + destruct (eqb_spec (m_ip g) (r_ip r)) as [E|E].
      * change (filter (in_group ip) (merge_rows max rows (Some (grow g))) = merge_rows max (if eqb (r_ip r) ip then r :: filter (fun r => eqb (r_ip r) ip) rows else filter (fun r => eqb (r_ip r) ip) rows) (if in_group ip g then Some g else None)).
        rewrite IH by apply Hg. unfold in_group at 1. cbn [m_ip grow]. unfold in_group. rewrite E. destruct (eqb (r_ip r) ip) eqn:Q; [|reflexivity].
        cbn [merge_rows]. rewrite E, eqb_refl. reflexivity.
      * change (filter (in_group ip) (g :: merge_rows max rows (Some (grow empty))) = merge_rows max (if eqb (r_ip r) ip then r :: filter (fun r => eqb (r_ip r) ip) rows else filter (fun r => eqb (r_ip r) ip) rows) (if in_group ip g then Some g else None)).
        cbn [filter]. rewrite IH by apply Hg. unfold in_group. cbn [m_ip grow]. destruct (eqb_spec (m_ip g) ip) as [Q|Q].
        -- destruct (eqb_spec (r_ip r) ip) as [Q'|Q']; [congruence|].
           assert (N : filter (fun r0 => eqb (r_ip r0) ip) rows = []).
           { destruct (filter (fun r0 => eqb (r_ip r0) ip) rows) as [|z l] eqn:Z; [reflexivity|]. exfalso.
             assert (I : In z (filter (fun r0 => eqb (r_ip r0) ip) rows)) by (rewrite Z; now left). apply filter_In in I as [I1 I2]. apply eqb_true in I2.
             destruct (Hc g eq_refl) as (r0 & E0 & F0). inversion F0 as [|? ? O1 _]; subst. rewrite Forall_forall in F. pose proof (F z I1) as O2.
             unfold ban_order in O1, O2. rewrite E0 in O1. apply orb_true_iff in O1, O2.
             destruct O1 as [O1|O1]; [|apply andb_true_iff in O1 as [O1 _]; apply eqb_true in O1; congruence].
             destruct O2 as [O2|O2]; [|apply andb_true_iff in O2 as [O2 _]; apply eqb_true in O2; congruence].
             rewrite I2 in O2. unfold String.ltb in O1, O2. rewrite String.compare_antisym in O1. destruct (String.compare (r_ip r) (m_ip g)); discriminate. }
           rewrite N. cbn. reflexivity.
        -- destruct (eqb_spec (r_ip r) ip) as [Q'|Q']; [|reflexivity]. cbn [merge_rows]. reflexivity.
    + change (filter (in_group ip) (merge_rows max rows (Some (grow empty))) = merge_rows max (if eqb (r_ip r) ip then r :: filter (fun r => eqb (r_ip r) ip) rows else filter (fun r => eqb (r_ip r) ip) rows) None).
      rewrite IH by apply Hg. unfold in_group. cbn [m_ip grow]. destruct (eqb (r_ip r) ip); [|reflexivity]. cbn [merge_rows]. reflexivity.
Qed.
