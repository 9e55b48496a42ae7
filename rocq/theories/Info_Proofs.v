(** Lemmas about what an action is told. *)
From Coq Require Import ZifyBool ZifyNat.
From Verif Require Import Base Ticket_Model Info_Model Info_Spec.
Local Open Scope string_scope.
Local Open Scope list_scope.
Local Open Scope Z_scope.

Lemma run_app ops1 : forall ops2 s, run s (ops1 ++ ops2) = let '(s1, l1) := run s ops1 in let '(s2, l2) := run s1 ops2 in (s2, l1 ++ l2).
Proof.
  induction ops1 as [|o ops1 IH]; intros ops2 s; cbn [app run]; [destruct (run s ops2); reflexivity|].
  destruct (step s o) as [s' x]. rewrite IH. destruct (run s' ops1) as [s1 l1]. destruct (run s1 ops2) as [s2 l2]. reflexivity.
Qed.

(** What the lambdas mean. *)
Definition lazies : list (string * calc) :=
  [("ip", CIp); ("family", CFamily); ("ip-rev", CRev); ("ip-host", CHost); ("fid", CFid); ("failures", CFailures); ("time", CTime);
   ("bantime", CBantime); ("bancount", CBancount); ("matches", CMatches); ("restored", CRestored); ("F-*", CData); ("ipmatches", CIpMatches);
   ("ipjailmatches", CIpJailMatches); ("ipfailures", CIpFailures); ("ipjailfailures", CIpJailFailures); ("raw-ticket", CRaw);
   ("jail.banned", CBanned); ("jail.banned_total", CBannedTotal); ("jail.found", CFound); ("jail.found_total", CFoundTotal)].
Lemma dget_map {A B} (f : A -> B) k : forall l : list (string * A), dget k (map (fun p => (fst p, f (snd p))) l) = option_map f (dget k l).
Proof. induction l as [|[x a] l IH]; [reflexivity|]. cbn. destruct (eqb k x); [reflexivity|exact IH]. Qed.
Lemma ai_dget k : dget k ai_dict = option_map Lazy (dget k lazies).
Proof. apply (dget_map Lazy). Qed.
Definition result (w : world) (c : calc) : res := match compute w c with Some r => r | None => compute_ip w c (Ok (VIP (w_addr w))) end.
Lemma told_results w : forall k c, In (k, c) lazies -> dget k (told w) = Some (result w c).
Proof.
  intros k c I. unfold lazies in I. unfold result, mi4ip.
  repeat (destruct I as [E|I]; [injection E as <- <-; unfold told, merged_or_own, number, lines, compute, compute_ip, mi4ip, ban_time; vm_compute; try reflexivity; destruct (w_merged w); reflexivity|]). destruct I.
Qed.
Lemma meaning_some w k c : dget k lazies = Some c -> meaning w k = result w c.
Proof. intros G. apply dget_In in G. unfold meaning. now rewrite (told_results w k c G). Qed.
Lemma told_keys w : map fst (told w) = ["ip"; "fid"; "family"; "ip-rev"; "ip-host"; "failures"; "time"; "bancount"; "bantime"; "matches"; "restored"; "F-*";
  "ipmatches"; "ipjailmatches"; "ipfailures"; "ipjailfailures"; "raw-ticket"; "jail.banned"; "jail.banned_total"; "jail.found"; "jail.found_total"].
Proof. reflexivity. Qed.
Lemma meaning_none w k : dget k lazies = None -> meaning w k = Err KeyError.
Proof.
  intros G. unfold meaning. destruct (dget k (told w)) as [r|] eqn:E; [|reflexivity]. exfalso.
  apply dget_In in E. apply (in_map fst) in E. cbn [fst] in E. rewrite told_keys in E.
  cbn [In] in E. repeat (destruct E as [<-|E]; [vm_compute in G; discriminate|]). destruct E.
Qed.

Lemma ai_wf : dwf ai_dict.
Proof. unfold dwf. vm_compute. repeat (constructor; [cbn; intuition discriminate|]). constructor. Qed.

(** ** The invariant *)
Definition justified (W : list world) (k : string) (v : val) : Prop := exists w, In w W /\ meaning w k = Ok v.
Record inv (T : list string) (W : list world) (s : sys) : Prop := {
  v_table : s_table s = ai_dict;
  v_org : i_org (s_info s) = None \/ i_org (s_info s) = Some Shared;
  v_data : if i_immutable (s_info s) then i_data (s_info s) = Shared
           else i_org (s_info s) = Some Shared /\ exists d, i_data (s_info s) = Own d /\ dwf d /\ forall k, ~ In k T -> dget k d = dget k ai_dict;
  v_wf : dwf (i_storage (s_info s));
  v_storage : forall k e, dget k (i_storage (s_info s)) = Some e ->
    exists v, e = Plain v /\ (justified W k v \/ i_immutable (s_info s) = false /\ (In k T \/ In "ip" T)) }.
Lemma inv_more T T' W W' s : inv T W s -> incl T T' -> incl W W' -> inv T' W' s.
Proof.
  intros [I1 I2 I3 I5 I4] HT HW. split; auto.
  - destruct (i_immutable (s_info s)); [exact I3|]. destruct I3 as (E & d & D & DW & F). split; [exact E|]. exists d. split; [exact D|]. split; [exact DW|]. intros k N. apply F. intros X. apply N, HT, X.
  - intros k e G. destruct (I4 k e G) as (v & E & [(w & Iw & M)|(Im & J)]); exists v; split; auto; [left; exists w; auto|right; split; [exact Im|]]. destruct J; auto.
Qed.
Lemma inv_deref T W s k : inv T W s -> ~ In k T -> dget k (deref s) = dget k ai_dict.
Proof.
  intros [I1 I2 I3 I5 I4] N. unfold deref. destruct (i_immutable (s_info s)); [rewrite I3, I1; reflexivity|]. destruct I3 as (_ & d & -> & _ & F). now apply F.
Qed.
Lemma raw_inv T W s k e : inv T W s -> raw k s = Some e -> ~ In k T -> (exists v, e = Plain v /\ (justified W k v \/ In "ip" T)) \/ exists c, e = Lazy c /\ dget k lazies = Some c.
Proof.
  intros I R N. unfold raw in R. destruct (dget k (i_storage (s_info s))) as [e'|] eqn:G.
  - injection R as ->. destruct (v_storage T W s I k e G) as (v & E & [J|(_ & [J|J])]); [left; eauto|contradiction|left; eauto].
  - right. rewrite (inv_deref T W s k I N), ai_dget in R. destruct (dget k lazies) as [c|]; [|discriminate]. injection R as <-. eauto.
Qed.
Lemma inv_keep T W s k r w : inv T W s -> In w W -> (In k T /\ i_immutable (s_info s) = false \/ In "ip" T /\ i_immutable (s_info s) = false \/ meaning w k = r) -> inv T W (keep k r s).
Proof.
  intros I Iw J. unfold keep. destruct r as [v|e]; [|exact I]. pose proof I as [I1 I2 I3 I5 I4]. split; [exact I1|exact I2|exact I3|now apply dwf_dset|]. cbn [with_info with_storage s_info i_storage i_immutable].
  intros k' e G. destruct (eqb_spec k' k) as [-> |N].
  - rewrite dget_dset_same in G. injection G as <-. exists v. split; [reflexivity|]. destruct J as [[J Im]|[[J Im]|J]]; [right; auto|right; auto|left; exists w; auto].
  - rewrite dget_dset_other in G by exact N. exact (I4 k' e G).
Qed.
Lemma inv_immutable T W s : inv T W s -> i_immutable (s_info s) = true -> inv [] W s.
Proof.
  intros [I1 I2 I3 I5 I4] Im. split; auto.
  - rewrite Im in *. exact I3.
  - intros k e G. destruct (I4 k e G) as (v & E & [J|(F & _)]); [eauto|congruence].
Qed.

(** One reading. *)
Section Read.
Variables (a : string).
Definition addressed (W : list world) : Prop := forall w, In w W -> w_addr w = a.

Lemma ip_value W v : addressed W -> justified W "ip" v -> v = VIP a.
Proof.
  intros A (w & Iw & M). rewrite (meaning_some w "ip" CIp eq_refl) in M. unfold result in M. cbn [compute] in M. rewrite (A w Iw) in M. congruence.
Qed.
Lemma get_ip_inv T W s w : inv T W s -> In w W -> addressed W ->
  inv T W (fst (get_ip w s)) /\ (~ In "ip" T -> snd (get_ip w s) = Ok (VIP a)) /\ i_immutable (s_info (fst (get_ip w s))) = i_immutable (s_info s).
Proof.
  intros I Iw A. unfold get_ip. destruct (raw "ip" s) as [e|] eqn:R.
  - destruct e as [c|v]; cbn [fst snd].
    + destruct (compute w c) as [r|] eqn:C; cbn [fst snd].
      * assert (M : ~ In "ip" T -> r = Ok (VIP a) /\ meaning w "ip" = r).
        { intros N. destruct (raw_inv T W s "ip" (Lazy c) I R N) as [(v & E & _)|(c' & E & G)]; [discriminate|]. injection E as <-. vm_compute in G. injection G as <-.
          rewrite (meaning_some w "ip" CIp eq_refl). unfold result. cbn [compute] in *. rewrite (A w Iw) in *. split; congruence. }
        split; [|split; [intros N; apply (M N)|unfold keep; destruct r; reflexivity]].
        destruct (i_immutable (s_info s)) eqn:Im.
        -- apply (inv_keep T W s "ip" r w I Iw). right. right. pose proof (inv_immutable T W s I Im) as I0.
           destruct (raw_inv [] W s "ip" (Lazy c) I0 R ltac:(auto)) as [(v & E & _)|(c' & E & G)]; [discriminate|]. injection E as <-. vm_compute in G. injection G as <-.
           rewrite (meaning_some w "ip" CIp eq_refl). unfold result. cbn [compute] in *. congruence.
        -- destruct (in_dec string_dec "ip" T) as [J|N]; [apply (inv_keep T W s "ip" r w I Iw); left; auto|apply (inv_keep T W s "ip" r w I Iw); right; right; apply (M N)].
      * split; [exact I|]. split; [|reflexivity]. intros N. exfalso. destruct (raw_inv T W s "ip" (Lazy c) I R N) as [(v & E & _)|(c' & E & G)]; [discriminate|]. injection E as <-. vm_compute in G. injection G as <-. discriminate.
    + split; [exact I|]. split; [|reflexivity]. intros N. destruct (raw_inv T W s "ip" (Plain v) I R N) as [(v' & E & [J|J])|(c' & E & _)]; [|contradiction|discriminate]. injection E as <-. now rewrite (ip_value W v A J).
  - split; [exact I|]. split; [|reflexivity]. intros N. unfold raw in R. destruct (dget "ip" (i_storage (s_info s))); [discriminate|]. rewrite (inv_deref T W s "ip" I N) in R. discriminate.
Qed.

Lemma get_inv T W s w k : inv T W s -> In w W -> addressed W ->
  inv T W (fst (get w k s)) /\ i_immutable (s_info (fst (get w k s))) = i_immutable (s_info s)
  /\ (~ In k T -> ~ In "ip" T -> exists w', In w' W /\ snd (get w k s) = meaning w' k).
Proof.
  intros I Iw A. unfold get. destruct (raw k s) as [e|] eqn:R.
  2:{ split; [exact I|]. split; [reflexivity|]. intros N _. exists w. split; [exact Iw|]. unfold raw in R. destruct (dget k (i_storage (s_info s))); [discriminate|].
      rewrite (inv_deref T W s k I N), ai_dget in R. cbn [snd]. rewrite meaning_none; [reflexivity|]. destruct (dget k lazies); [discriminate|reflexivity]. }
  destruct e as [c|v].
  2:{ cbn [fst snd]. split; [exact I|]. split; [reflexivity|]. intros N N'. destruct (raw_inv T W s k (Plain v) I R N) as [(v' & E & [(w' & Iw' & M)|J])|(c' & E & _)]; [|contradiction|discriminate].
      injection E as <-. exists w'. auto. }
  assert (LC : ~ In k T \/ i_immutable (s_info s) = true -> dget k lazies = Some c).
  { intros [N|Im].
    - destruct (raw_inv T W s k (Lazy c) I R N) as [(v & E & _)|(c' & E & G)]; [discriminate|]. congruence.
    - destruct (raw_inv [] W s k (Lazy c) (inv_immutable T W s I Im) R ltac:(auto)) as [(v & E & _)|(c' & E & G)]; [discriminate|]. congruence. }
  destruct (compute w c) as [r|] eqn:C; cbn [fst snd].
  - assert (M : ~ In k T \/ i_immutable (s_info s) = true -> meaning w k = r) by (intros H; rewrite (meaning_some w k c (LC H)); unfold result; now rewrite C).
    split; [|split; [unfold keep; destruct r; reflexivity|intros N _; exists w; rewrite (M (or_introl N)); auto]].
    destruct (i_immutable (s_info s)) eqn:Im; [apply (inv_keep T W s k r w I Iw); right; right; apply M; auto|].
    destruct (in_dec string_dec k T) as [J|N]; [apply (inv_keep T W s k r w I Iw); auto|apply (inv_keep T W s k r w I Iw); right; right; apply M; auto].
  - destruct (get_ip_inv T W s w I Iw A) as (I' & P & Im'). destruct (i_immutable (s_info s)) eqn:Im.
    + pose proof (inv_immutable T W s I Im) as I0. destruct (get_ip_inv [] W s w I0 Iw A) as (_ & P0 & _). specialize (P0 ltac:(auto)).
      destruct (get_ip w s) as [s' ip]. cbn [fst snd] in *. subst ip.
      assert (M : meaning w k = compute_ip w c (Ok (VIP a))).
      { rewrite (meaning_some w k c (LC (or_intror eq_refl))). unfold result. now rewrite C, (A w Iw). }
      split; [apply (inv_keep T W s' k _ w I' Iw); auto|]. split; [unfold keep; destruct (compute_ip _ _ _); exact Im'|]. intros _ _. exists w. split; [exact Iw|now symmetry].
    + destruct (get_ip w s) as [s' ip]. cbn [fst snd] in *.
      assert (M : ~ In k T -> ~ In "ip" T -> meaning w k = compute_ip w c ip).
      { intros N N'. rewrite (P N'). rewrite (meaning_some w k c (LC (or_introl N))). unfold result. now rewrite C, (A w Iw). }
      split; [|split; [unfold keep; destruct (compute_ip _ _ _); exact Im'|intros N N'; exists w; split; [exact Iw|symmetry; auto]]].
      destruct (in_dec string_dec k T) as [J|N]; [apply (inv_keep T W s' k _ w I' Iw); auto|]. destruct (in_dec string_dec "ip" T) as [J|N']; apply (inv_keep T W s' k _ w I' Iw); auto.
Qed.
End Read.

Lemma mutate_inv T W s : inv T W s -> inv T W (mutate s) /\ i_immutable (s_info (mutate s)) = false /\ i_storage (s_info (mutate s)) = i_storage (s_info s).
Proof.
  intros I. unfold mutate. destruct (i_immutable (s_info s)) eqn:Im; [|auto]. pose proof I as [I1 I2 I3 I5 I4]. rewrite Im in I3, I4. split; [|auto].
  split; cbn [with_info s_info s_table i_org i_immutable i_data i_storage].
  - exact I1.
  - right. now rewrite I3.
  - split; [now rewrite I3|]. eexists. split; [reflexivity|]. unfold deref. rewrite I3, I1. split; [exact ai_wf|reflexivity].
  - exact I5.
  - intros k e G. destruct (I4 k e G) as (v & E & [J|(X & _)]); [eauto|discriminate].
Qed.
Lemma step_inv a T W s o : inv T W s -> o <> Reset false -> addressed a W -> incl (worlds [o]) W -> inv (touched [o] ++ T) W (fst (step s o)).
Proof.
  intros I NR A HW. destruct o as [w k|k v|k|b]; cbn [step touched flat_map app].
  - pose proof (get_inv a T W s w k I ltac:(apply HW; now left) A) as (G & _). destruct (get w k s). exact G.
  - cbn [fst]. unfold set. destruct (mutate_inv T W s I) as (M & Im & Sg). set (s' := mutate s) in *. pose proof M as [I1 I2 I3 I5 I4]. rewrite Im in I3, I4.
    split; cbn [with_info with_storage s_info s_table i_org i_immutable i_data i_storage]; auto; rewrite ?Im.
    + destruct I3 as (E & d & D & DW & F). split; [exact E|]. exists d. split; [exact D|]. split; [exact DW|]. intros k' N. apply F. intros X. apply N. now right.
    + now apply dwf_dset.
    + intros k' e G. destruct (eqb_spec k' k) as [-> |N].
      * rewrite dget_dset_same in G. injection G as <-. exists v. split; [reflexivity|]. right. split; [reflexivity|]. left. now left.
      * rewrite dget_dset_other in G by exact N. destruct (I4 k' e G) as (v' & E & [J|(_ & J)]); exists v'; split; auto. right. split; [reflexivity|]. cbn [In]. tauto.
  - unfold del. destruct (mutate_inv T W s I) as (M & Im & Sg). set (s' := mutate s) in *. pose proof M as [I1 I2 I3 I5 I4]. rewrite Im in I3, I4.
    destruct I3 as (E & d & D & DW & F). cbn [with_info with_storage s_info s_table i_org i_immutable i_data i_storage deref]. rewrite D, Im.
    assert (St : forall k' e, dget k' (ddel k (i_storage (s_info s'))) = Some e -> exists v, e = Plain v /\ (justified W k' v \/ false = false /\ (In k' (k :: T) \/ In "ip" (k :: T)))).
    { intros k' e G. destruct (eqb_spec k' k) as [-> |N].
      - rewrite dget_ddel_same in G by exact I5. discriminate.
      - rewrite dget_ddel_other in G by exact N. destruct (I4 k' e G) as (v' & E' & [J|(_ & J)]); exists v'; split; auto. right. split; [reflexivity|]. cbn [In]. tauto. }
    destruct (dmem k (deref _)); cbn [fst].
    + split; cbn [with_info with_storage s_info s_table i_org i_immutable i_data i_storage]; auto; [|now apply dwf_ddel].
      split; [exact E|]. eexists. split; [reflexivity|]. split; [now apply dwf_ddel|]. intros k' N. cbn [In] in N. rewrite dget_ddel_other by (intros X; apply N; left; congruence). apply F. tauto.
    + split; cbn [with_info with_storage s_info s_table i_org i_immutable i_data i_storage]; auto; [|now apply dwf_ddel|rewrite Im; exact St].
      rewrite Im. split; [exact E|]. exists d. split; [exact D|]. split; [exact DW|]. intros k' N. cbn [In] in N. apply F. tauto.
  - destruct b; [|congruence]. cbn [fst]. unfold reset. pose proof I as [I1 I2 I3 I5 I4].
    split; cbn [with_info with_storage s_info s_table i_org i_immutable i_data i_storage]; auto.
    + destruct (i_immutable (s_info s)); [destruct I2 as [-> | ->]; [exact I3|reflexivity]|]. destruct I3 as (-> & _). reflexivity.
    + constructor.
    + intros k e G. discriminate.
Qed.

Lemma run_inv a : forall ops T W s, inv T W s -> proper ops -> addressed a W -> incl (worlds ops) W -> inv (touched ops ++ T) W (fst (run s ops)).
Proof.
  induction ops as [|o ops IH]; intros T W s I P A HW; [exact I|]. cbn [run].
  assert (HW' : incl (worlds [o]) W /\ incl (worlds ops) W).
  { unfold worlds in *. cbn [flat_map] in *. rewrite app_nil_r. split; intros x X; apply HW; apply in_or_app; auto. }
  pose proof (step_inv a T W s o I ltac:(intros ->; apply P; now left) A (proj1 HW')) as S1. destruct (step s o) as [s' x]. cbn [fst] in S1.
  specialize (IH _ W s' S1 ltac:(intros X; apply P; now right) A (proj2 HW')). destruct (run s' ops) as [s2 l]. cbn [fst] in *.
  apply (inv_more _ _ W W _ IH); [|apply incl_refl]. intros k X. unfold touched in *. cbn [flat_map] in *. rewrite app_nil_r in X.
  apply in_app_or in X as [X|X]; [apply in_or_app; left; apply in_or_app; now right|]. apply in_app_or in X as [X|X]; [apply in_or_app; left; apply in_or_app; now left|apply in_or_app; now right].
Qed.
Lemma before_inv T W s : inv T W s -> inv [] W (before_action s).
Proof.
  intros I. unfold before_action. destruct (i_immutable (s_info s)) eqn:Im; [now apply (inv_immutable T)|].
  pose proof I as [I1 I2 I3 I5 I4]. rewrite Im in I3. destruct I3 as (E & d & D & DW & F). unfold reset.
  split; cbn [with_info s_info s_table i_org i_immutable i_data i_storage]; auto; [now rewrite E|constructor|intros k e G; discriminate].
Qed.
Lemma start_inv W : inv [] W start.
Proof. split; cbn; auto; [constructor|intros k e G; discriminate]. Qed.
Lemma actions_inv a W : addressed a W -> forall acts T s, inv T W s -> Forall proper acts -> incl (worlds (concat acts)) W -> exists T', inv T' W (fst (run_actions s acts)).
Proof.
  intros A. induction acts as [|x acts IH]; intros T s I P HW; [exists T; exact I|]. inversion P as [|? ? P1 P2]; subst. cbn [run_actions].
  assert (HW' : incl (worlds x) W /\ incl (worlds (concat acts)) W).
  { unfold worlds in *. cbn [concat] in HW. rewrite flat_map_app in HW. split; intros y Y; apply HW; apply in_or_app; auto. }
  pose proof (run_inv a x [] W (before_action s) (before_inv T W s I) P1 A (proj1 HW')) as R. destruct (run (before_action s) x) as [s' l]. cbn [fst] in R.
  destruct (IH _ s' R P2 (proj2 HW')) as (T' & I'). exists T'. destruct (run_actions s' acts). exact I'.
Qed.
Lemma after_inv a W pre ops : addressed a W -> Forall proper pre -> proper ops -> incl (worlds (concat pre)) W -> incl (worlds ops) W -> inv (touched ops) W (after pre ops).
Proof.
  intros A P1 P2 H1 H2. unfold after. destruct (actions_inv a W A pre [] start (start_inv W) P1 H1) as (T & I).
  pose proof (run_inv a ops [] W _ (before_inv T W _ I) P2 A H2) as R. now rewrite app_nil_r in R.
Qed.

(** The action's own changes. *)
Lemma raw_plain_get w k s v : raw k s = Some (Plain v) -> get w k s = (s, Ok v).
Proof. intros R. unfold get. now rewrite R. Qed.
Lemma keep_raw k k' r s v : k <> k' \/ r = Ok v -> raw k s = Some (Plain v) -> raw k (keep k' r s) = Some (Plain v).
Proof.
  intros N R. unfold keep. destruct r as [v'|]; [|exact R]. unfold raw in *. cbn [with_info with_storage s_info i_storage]. destruct (eqb_spec k k') as [-> |NE].
  - rewrite dget_dset_same. destruct N as [N|N]; [congruence|]. now injection N as ->.
  - rewrite dget_dset_other by exact NE. exact R.
Qed.
(** A plain value stays while others are read. *)
Lemma get_ip_raw w s k v : raw k s = Some (Plain v) -> raw k (fst (get_ip w s)) = Some (Plain v).
Proof.
  intros R. unfold get_ip. destruct (raw "ip" s) as [[c|v']|] eqn:E; [|exact R|exact R]. destruct (compute w c) as [r|]; [|exact R]. cbn [fst]. apply keep_raw; [|exact R]. left. congruence.
Qed.
Lemma get_raw w k' s k v : raw k s = Some (Plain v) -> raw k (fst (get w k' s)) = Some (Plain v).
Proof.
  intros R. unfold get. destruct (raw k' s) as [[c|v']|] eqn:E; [|exact R|exact R]. destruct (compute w c) as [r|].
  - cbn [fst]. apply keep_raw; [left; congruence|exact R].
  - pose proof (get_ip_raw w s k v R) as R'. destruct (get_ip w s) as [s' ip]. cbn [fst] in *. apply keep_raw; [left; congruence|exact R'].
Qed.
Lemma mutate_raw s k : raw k (mutate s) = raw k s.
Proof. unfold mutate. destruct (i_immutable (s_info s)) eqn:Im; [|reflexivity]. unfold raw. cbn. reflexivity. Qed.
Lemma set_raw k v s : raw k (set k v s) = Some (Plain v).
Proof. unfold set, raw. cbn [with_info with_storage s_info i_storage]. now rewrite dget_dset_same. Qed.
Lemma set_raw_other k k' v s : k <> k' -> raw k (set k' v s) = raw k s.
Proof. intros N. rewrite <- (mutate_raw s k). unfold set, raw, deref. cbn [with_info with_storage s_info s_table i_storage i_data]. now rewrite dget_dset_other by exact N. Qed.
Lemma del_raw_other k k' s : k <> k' -> raw k (fst (del k' s)) = raw k s.
Proof.
  intros N. rewrite <- (mutate_raw s k). unfold del. set (s' := mutate s). destruct (dmem k' (deref _)); cbn [fst].
  - destruct (i_data _) eqn:D; cbn [with_info with_storage s_info i_data] in D; unfold raw, deref; cbn [with_info with_storage s_info s_table i_storage i_data]; rewrite dget_ddel_other by exact N; rewrite D; [|now rewrite dget_ddel_other by exact N].
    now rewrite dget_ddel_other by exact N.
  - unfold raw, deref. cbn [with_info with_storage s_info s_table i_storage i_data]. now rewrite dget_ddel_other by exact N.
Qed.
Definition no_reset (ops : list op) : Prop := forall b, ~ In (Reset b) ops.
Lemma run_raw k v : forall ops s, no_reset ops -> ~ In k (touched ops) -> raw k s = Some (Plain v) -> raw k (fst (run s ops)) = Some (Plain v).
Proof.
  induction ops as [|o ops IH]; intros s NR NT R; [exact R|]. cbn [run].
  assert (NR' : no_reset ops) by (intros b X; apply (NR b); now right).
  assert (NT' : ~ In k (touched ops)) by (intros X; apply NT; unfold touched; cbn [flat_map]; apply in_or_app; now right).
  assert (R' : raw k (fst (step s o)) = Some (Plain v)).
  { destruct o as [w k'|k' v'|k'|b]; cbn [step].
    - pose proof (get_raw w k' s k v R) as G. destruct (get w k' s). exact G.
    - cbn [fst]. rewrite set_raw_other; [exact R|]. intros ->. apply NT. now left.
    - assert (N : k <> k') by (intros ->; apply NT; now left). pose proof (del_raw_other k k' s N) as D. destruct (del k' s). cbn [fst] in *. congruence.
    - exfalso. apply (NR b). now left. }
  destruct (step s o) as [s' x]. cbn [fst] in R'. specialize (IH s' NR' NT' R'). destruct (run s' ops). exact IH.
Qed.
Lemma get_ok_raw w k s v : snd (get w k s) = Ok v -> raw k (fst (get w k s)) = Some (Plain v).
Proof.
  intros G. unfold get in *. destruct (raw k s) as [[c|v']|] eqn:E; cbn [fst snd] in *.
  - assert (KR : forall s', raw k (keep k (Ok v) s') = Some (Plain v)) by (intros s'; unfold keep, raw; cbn [with_info with_storage s_info i_storage]; now rewrite dget_dset_same).
    destruct (compute w c) as [r|]; cbn [fst snd] in *; [subst r; apply KR|]. destruct (get_ip w s) as [s' ip]. cbn [fst snd] in *. rewrite G. apply KR.
  - injection G as ->. exact E.
  - discriminate.
Qed.
Lemma before_raw k s : i_immutable (s_info s) = true -> raw k (before_action s) = raw k s.
Proof. intros Im. unfold before_action. now rewrite Im. Qed.
Lemma reads_immutable : forall ops s, only_reads ops -> i_immutable (s_info (fst (run s ops))) = i_immutable (s_info s).
Proof.
  assert (K : forall k r s, i_immutable (s_info (keep k r s)) = i_immutable (s_info s)) by (intros k r s; unfold keep; destruct r; reflexivity).
  induction ops as [|o ops IH]; intros s H; [reflexivity|]. destruct (H o ltac:(now left)) as (w & k & ->). cbn [run step].
  assert (G : i_immutable (s_info (fst (get w k s))) = i_immutable (s_info s)).
  { unfold get. destruct (raw k s) as [[c|v]|]; [|reflexivity|reflexivity]. destruct (compute w c); cbn [fst]; [apply K|].
    assert (GI : i_immutable (s_info (fst (get_ip w s))) = i_immutable (s_info s)) by (unfold get_ip; destruct (raw "ip" s) as [[c'|v]|]; [|reflexivity|reflexivity]; destruct (compute w c'); [apply K|reflexivity]).
    destruct (get_ip w s) as [s' ip]. cbn [fst] in *. now rewrite K. }
  destruct (get w k s) as [s' r]. cbn [fst] in G. specialize (IH s' ltac:(intros o' X; apply H; now right)). destruct (run s' ops). cbn [fst] in *. congruence.
Qed.

(** Deleted is gone. *)
Lemma del_gone T W s k : inv T W s -> raw k (fst (del k s)) = None.
Proof.
  intros I. unfold del. destruct (mutate_inv T W s I) as (M & Im & _). set (s' := mutate s) in *. pose proof M as [I1 I2 I3 I5 I4]. rewrite Im in I3.
  destruct I3 as (E & d & D & DW & F). destruct (dmem k (deref _)) eqn:X; cbn [fst]; unfold raw, deref in *; cbn [with_info with_storage s_info s_table i_org i_immutable i_data i_storage] in *; rewrite D in *;
    cbn [with_info with_storage s_info s_table i_org i_immutable i_data i_storage]; rewrite dget_ddel_same by exact I5.
  - now apply dget_ddel_same.
  - unfold dmem in X. destruct (dget k d); [discriminate|reflexivity].
Qed.
Lemma keep_gone k k' r s : k <> k' -> raw k s = None -> raw k (keep k' r s) = None.
Proof. intros N R. unfold keep. destruct r; [|exact R]. unfold raw in *. cbn [with_info with_storage s_info i_storage]. rewrite dget_dset_other by exact N. exact R. Qed.
Lemma get_gone w k' s k : raw k s = None -> raw k (fst (get w k' s)) = None.
Proof.
  intros R. unfold get. destruct (raw k' s) as [[c|v']|] eqn:E; [|exact R|exact R]. destruct (compute w c) as [r|].
  - cbn [fst]. apply keep_gone; [congruence|exact R].
  - assert (G : raw k (fst (get_ip w s)) = None).
    { unfold get_ip. destruct (raw "ip" s) as [[c'|v']|] eqn:E'; [|exact R|exact R]. destruct (compute w c') as [r|]; [|exact R]. cbn [fst]. apply keep_gone; [congruence|exact R]. }
    destruct (get_ip w s) as [s' ip]. cbn [fst] in *. apply keep_gone; [congruence|exact G].
Qed.
Lemma run_gone k : forall ops s, no_reset ops -> ~ In k (touched ops) -> raw k s = None -> raw k (fst (run s ops)) = None.
Proof.
  induction ops as [|o ops IH]; intros s NR NT R; [exact R|]. cbn [run].
  assert (NR' : no_reset ops) by (intros b X; apply (NR b); now right).
  assert (NT' : ~ In k (touched ops)) by (intros X; apply NT; unfold touched; cbn [flat_map]; apply in_or_app; now right).
  assert (R' : raw k (fst (step s o)) = None).
  { destruct o as [w k'|k' v'|k'|b]; cbn [step].
    - pose proof (get_gone w k' s k R) as G. destruct (get w k' s). exact G.
    - cbn [fst]. rewrite set_raw_other; [exact R|]. intros ->. apply NT. now left.
    - assert (N : k <> k') by (intros ->; apply NT; now left). pose proof (del_raw_other k k' s N) as D. destruct (del k' s). cbn [fst] in *. congruence.
    - exfalso. apply (NR b). now left. }
  destruct (step s o) as [s' x]. cbn [fst] in R'. specialize (IH s' NR' NT' R'). destruct (run s' ops). exact IH.
Qed.

(** Actions that only read. *)
Lemma reads_free ops : only_reads ops -> no_reset ops /\ touched ops = [].
Proof.
  intros H. split.
  - intros b X. destruct (H _ X) as (w & k & E). discriminate.
  - induction ops as [|o ops IH]; [reflexivity|]. destruct (H o ltac:(now left)) as (w & k & ->). cbn. apply IH. intros o X. apply H. now right.
Qed.
Lemma reads_keep k v ops s : only_reads ops -> raw k s = Some (Plain v) -> raw k (fst (run s ops)) = Some (Plain v) /\ i_immutable (s_info (fst (run s ops))) = i_immutable (s_info s).
Proof. intros H R. destruct (reads_free ops H) as [N T]. split; [apply run_raw; [exact N|rewrite T; auto|exact R]|now apply reads_immutable]. Qed.
Lemma actions_reads acts : forall s, Forall only_reads acts -> i_immutable (s_info s) = true -> i_immutable (s_info (fst (run_actions s acts))) = true.
Proof.
  induction acts as [|x acts IH]; intros s H Im; [exact Im|]. inversion H; subst. cbn [run_actions]. pose proof (reads_immutable x (before_action s) ltac:(assumption)) as R.
  assert (B : before_action s = s) by (unfold before_action; now rewrite Im). rewrite B in *. destruct (run s x) as [s' l]. cbn [fst] in R. specialize (IH s' ltac:(assumption) ltac:(congruence)).
  destruct (run_actions s' acts). exact IH.
Qed.
Lemma actions_keep k v acts : forall s, Forall only_reads acts -> raw k s = Some (Plain v) -> i_immutable (s_info s) = true ->
  raw k (fst (run_actions s acts)) = Some (Plain v) /\ i_immutable (s_info (fst (run_actions s acts))) = true.
Proof.
  induction acts as [|x acts IH]; intros s H R Im; [auto|]. inversion H; subst. cbn [run_actions].
  assert (B : before_action s = s) by (unfold before_action; now rewrite Im). rewrite B.
  destruct (reads_keep k v x s ltac:(assumption) R) as [R' Im']. destruct (run s x) as [s' l]. cbn [fst] in *. rewrite Im in Im'. destruct (IH s' ltac:(assumption) R' Im') as [A1 A2].
  destruct (run_actions s' acts). auto.
Qed.
Lemma actions_app a1 : forall a2 s, fst (run_actions s (a1 ++ a2)) = fst (run_actions (fst (run_actions s a1)) a2).
Proof.
  induction a1 as [|x a1 IH]; intros a2 s; [reflexivity|]. cbn [app run_actions]. destruct (run (before_action s) x) as [s' l]. specialize (IH a2 s').
  destruct (run_actions s' (a1 ++ a2)) as [s2 l2]. destruct (run_actions s' a1) as [s1 l1]. exact IH.
Qed.
Lemma commands_last cs : forall s c, last (snd (run_commands s (cs ++ [c]))) [] = skipn 2 (snd (run_command (fst (run_commands s cs)) c)).
Proof.
  induction cs as [|x cs IH]; intros s c.
  - cbn [app run_commands fst]. destruct (run_command s c) as [s' l]. reflexivity.
  - cbn [app run_commands]. destruct (run_command s x) as [s' l]. specialize (IH s' c).
    destruct (run_commands s' (cs ++ [c])) as [s2 l2] eqn:E. destruct (run_commands s' cs) as [s1 l1]. cbn [fst snd] in *. rewrite <- IH.
    destruct l2 as [|y l2]; [|reflexivity]. exfalso. assert (L : forall cs s, length (snd (run_commands s cs)) = length cs).
    { clear. induction cs as [|x cs IH]; intros s; [reflexivity|]. cbn [run_commands]. destruct (run_command s x) as [s' l]. specialize (IH s'). destruct (run_commands s' cs). cbn in *. congruence. }
    specialize (L (cs ++ [c]) s'). rewrite E, app_length in L. cbn in L. lia.
Qed.
Lemma reads_nth l : forall s i w k v, nth_error l i = Some (w, k) -> raw k s = Some (Plain v) -> nth_error (snd (run s (map (fun p => Get (fst p) (snd p)) l))) i = Some (Got (Ok v)).
Proof.
  induction l as [|[w0 k0] l IH]; intros s i w k v H R; [destruct i; discriminate|]. cbn [map run step fst snd]. destruct i as [|i].
  - cbn in H. injection H as -> ->. rewrite (raw_plain_get w k s v R). destruct (run s _). reflexivity.
  - cbn in H. pose proof (get_raw w0 k0 s k v R) as R'. destruct (get w0 k0 s) as [s' r]. cbn [fst] in R'. specialize (IH s' i w k v H R'). destruct (run s' _) as [s2 l2]. cbn [snd nth_error] in *. exact IH.
Qed.
