(** Proofs about the filter: bans without delay, and what is ignored. *)
From Verif Require Import Base Text IPAddr_Model Utils_Model Lines_Model Session_Model Ignore_Model Ignore_Spec
  Ticket_Model FailManager_Model FailManager_Proofs Filter_Model Filter_Spec Filter_Proofs.
Require Import ZifyBool ZifyNat.
Local Open Scope list_scope.

(** ** no ID waits at its limit *)
Lemma dset_twice {V} (k : string) (v w : V) d : dset k v (dset k w d) = dset k v d.
Proof.
  induction d as [|[k' x] d IH]; cbn [dset].
  - now rewrite eqb_refl.
  - destruct (eqb k k') eqn:E; cbn [dset]; rewrite E; [reflexivity|]. now rewrite IH.
Qed.
Definition low (fm : failmgr) : Prop := dwf (fm_list fm) /\ forall k t, dget k (fm_list fm) = Some t -> t_retry t < fm_retry fm.
Lemma cleanup_low fm t : low fm -> low (cleanup fm t).
Proof.
  intros [W L]. destruct (cleanup_other fm t) as (R & _). split; rewrite cleanup_list by exact W.
  - unfold dwf, dkeys in *. induction (fm_list fm) as [|[k x] l IH]; cbn; [constructor|]. inversion W as [|? ? N W']; subst.
    assert (IH' := IH W'). clear IH. assert (L' : forall q, ~ In k (map fst l) -> ~ In k (map fst (filter q l))) by (intros q Hn Hi; apply Hn; apply in_map_iff in Hi as (y & <- & Hy); apply filter_In in Hy; apply in_map; tauto).
    destruct (negb _); cbn; [constructor; [now apply L'|]|]; apply IH'; intros k' t' D; apply (L k' t'); cbn;
      (destruct (eqb_spec k' k) as [->|]; [exfalso; apply N; apply dget_In in D; apply (in_map fst) in D; exact D|exact D]).
  - rewrite R. intros k x D. apply (L k x). apply dget_In in D. apply filter_In in D as [D _]. now apply In_dget.
Qed.
Lemma svc_low fm now nx : low fm -> low (fst (perform_svc fm now nx)).
Proof. intros L. unfold perform_svc. destruct (_ >=? _); [now apply cleanup_low|exact L]. Qed.
Lemma report_low fm tk count now nx q : t_isban tk = false -> low fm ->
  let '(fm1, n) := add_failure fm tk false count false in
  low (if n >=? fm_retry fm1 then match perform_ban fm1 (Some (t_id tk)) now nx q with Some (fm2, _, _) => fm2 | None => fm1 end else fm1) /\
  fm_retry (if n >=? fm_retry fm1 then match perform_ban fm1 (Some (t_id tk)) now nx q with Some (fm2, _, _) => fm2 | None => fm1 end else fm1) = fm_retry fm.
Proof.
  intros B [W L].
  assert (K : exists new t, add_failure fm tk false count false = (with_total t (with_list (dset (t_id tk) new (fm_list fm)) fm), t_retry new)).
  { destruct (add_failure_cases fm tk false count false)
      as [(old&new&Ho&Hi&->)|[(old&new&Ho&Hi&Hx&_)|[(old&Ho&Hob&l&Hl&Hkl&E)|[(Hn&Hob&E)|(Hn&Hob&->)]]]]; try (rewrite B in *; discriminate); eauto.
    unfold add_failure, add_known in *. rewrite Ho in *. destruct (inc _ _ _ _) as [x []]; rewrite ?B in *; cbn [orb fm_list with_list with_total fm_total fm_retry fm_time fm_maxm] in *;
      [|eexists _, _; reflexivity]. eexists _, _. cbn. f_equal. unfold with_total, with_list. cbn. f_equal.
    apply dset_twice. }
  destruct K as (new & t & ->). cbn [fm_retry with_total with_list]. 
  assert (Wn : dwf (dset (t_id tk) new (fm_list fm))) by now apply dwf_dset.
  destruct (Z.geb_spec (t_retry new) (fm_retry fm)) as [G|G].
  - unfold perform_ban. cbn [ban_loop]. unfold to_ban. cbn [fm_list with_total with_list fm_retry]. rewrite dget_dset_same. cbn [first_bannable]. 
    destruct (Z.geb_spec (t_retry new) (fm_retry fm)); [|lia].
    set (fm2 := with_list _ _). assert (L2 : low fm2 /\ fm_retry fm2 = fm_retry fm).
    { split; [|reflexivity]. split; [now apply dwf_ddel|]. cbn. intros k x D. destruct (eqb_spec k (t_id tk)) as [->|N]; [rewrite dget_ddel_same in D by exact Wn; discriminate|].
      rewrite dget_ddel_other in D by congruence. rewrite dget_dset_other in D by congruence. eauto. }
    destruct (perform_svc fm2 now nx) as [fm3 nx3] eqn:Es. pose proof (svc_low fm2 now nx (proj1 L2)) as L3. rewrite Es in L3. split; [exact L3|].
    unfold perform_svc in Es. destruct (_ >=? _); injection Es as <- <-; [destruct (cleanup_other fm2 now) as (-> & _)|]; apply L2.
  - split; [|reflexivity]. split; [exact Wn|]. cbn. intros k x D. destruct (eqb_spec k (t_id tk)) as [->|N]; [rewrite dget_dset_same in D; now injection D as <-|].
    rewrite dget_dset_other in D by congruence. eauto.
Qed.
Lemma count_low w t l : forall f f' evs ok, low (l_fm f) -> count_all w f t l = (f', evs, ok) -> low (l_fm f') /\ fm_retry (l_fm f') = fm_retry (l_fm f).
Proof.
  induction l as [|[ip fl] l IH]; cbn [count_all]; intros f f' evs ok L E; [now injection E as <- <- <-|].
  set (t' := if t >? fw_now w then fw_now w else t) in *. destruct (in_ignore _ _ _) as [ig [[]|]]; [now apply IH in E| |now injection E as <- <- <-].
  pose proof (report_low (l_fm f) (ticket_of ip t' fl) 1 (fw_now w) (l_svc f) (l_queue f) eq_refl L) as R. cbn [with_ign l_fm l_svc l_queue] in E.
  destruct (add_failure _ _ _ _ _) as [fm1 n]. cbn [t_id ticket_of new_ticket] in R. destruct (count_all w _ t l) as [[f2 evs2] ok2] eqn:E2. injection E as <- <- <-.
  destruct R as [R1 R2]. cbn [with_fm l_svc l_queue] in E2. revert R1 R2 E2. change (t_id (ticket_of ip t' fl)) with (key (ntoa ip)).
  destruct (n >=? fm_retry fm1); [destruct (perform_ban _ _ _ _ _) as [[[fm2 nx] q]|]|]; intros R1 R2 E2; apply IH in E2; cbn [with_fm l_fm] in *; try exact R1; destruct E2 as [E2 E3]; split; auto; congruence.
Qed.
Lemma line_low cfg w f i : low (l_fm f) -> low (l_fm (fst (line_step cfg w f i))) /\ fm_retry (l_fm (fst (line_step cfg w f i))) = fm_retry (l_fm f).
Proof.
  intros L. unfold line_step. pose proof (process_same cfg w f i) as P. destruct (process_line cfg w f i) as [[f1 o] t]. destruct P as (P & _).
  assert (CE : forall f0, l_fm (common_error f0) = l_fm f0) by (intros f0; unfold common_error; destruct (_ >=? _); auto).
  destruct o as [l|]; [|cbn; rewrite CE, P; auto]. destruct (count_all w f1 t l) as [[f2 evs] ok] eqn:E. apply count_low in E as [E1 E2]; [|now rewrite P]. rewrite P in E2.
  destruct ok; cbn [negb fst]; [|rewrite CE; auto]. destruct (_ =? 0); cbn [with_count with_fm l_fm]; [|auto].
  pose proof (svc_low (l_fm f2) (fw_now w) (l_svc f2) E1) as S. cbn [with_count l_svc l_fm]. destruct (perform_svc (l_fm f2) (fw_now w) (l_svc f2)) as [fm3 nx3] eqn:Es. cbn [with_fm with_count l_fm].
  split; [exact S|]. unfold perform_svc in Es. destruct (_ >=? _); injection Es as <- <-; [destruct (cleanup_other (l_fm f2) (fw_now w)) as (-> & _)|]; exact E2.
Qed.
Lemma run_low ops : forall f f' evs, low (l_fm f) -> never_lowered (fm_retry (l_fm f)) ops -> flt_run f ops = (f', evs) -> low (l_fm f').
Proof.
  induction ops as [|o ops IH]; cbn [flt_run]; intros f f' evs L N E; [now injection E as <- <-|].
  destruct (flt_step f o) as [f1 e] eqn:E1. destruct (flt_run f1 ops) as [f2 es] eqn:E2. injection E as <- <-.
  assert (Same : l_fm f1 = l_fm f -> never_lowered (fm_retry (l_fm f)) ops -> low (l_fm f2)) by (intros Q N'; eapply IH; [| |exact E2]; rewrite Q; assumption).
  destruct o as [cfg w i|o|w id m|k|k|k]; cbn [flt_step] in E1; cbn [never_lowered] in N.
  - pose proof (line_low cfg w f i L) as [L1 L2]. rewrite E1 in L1, L2. cbn [fst] in *. eapply IH; [exact L1| |exact E2]. now rewrite L2.
  - injection E1 as <- <-. now apply Same.
  - unfold add_attempt in E1. destruct (ip_new id CUnspec) as [ip|]; [|injection E1 as <- <-; now apply Same].
    pose proof (report_low (l_fm f) (new_ticket (key (ntoa ip)) (fw_now w) m 0) (match m with [] => 1 | _ => Z.of_nat (length m) end) (fw_now w) (l_svc f) (l_queue f) eq_refl L) as R.
    destruct (add_failure _ _ _ _ _) as [fm1 n]. injection E1 as <- <-. change (t_id (new_ticket (key (ntoa ip)) (fw_now w) m 0)) with (key (ntoa ip)) in R.
    destruct R as [R1 R2]. cbn [with_fm l_svc l_queue] in E2. revert R1 R2 E2.
    destruct (n >=? fm_retry fm1); [destruct (perform_ban _ _ _ _ _) as [[[fm2 nx] q]|]|]; intros R1 R2 E2; (eapply IH; [| |exact E2]; cbn [with_fm l_fm]; [exact R1|now rewrite R2]).
  - injection E1 as <- <-. eapply IH; [| |exact E2]; cbn; [|apply N]. destruct L as [W L]. split; [exact W|]. cbn. intros k' t D. specialize (L k' t D). lia.
  - injection E1 as <- <-. eapply IH; [| |exact E2]; cbn; [|exact N]. exact L.
  - injection E1 as <- <-. eapply IH; [| |exact E2]; cbn; [|exact N]. exact L.
Qed.

(** ** the ignore list only takes failures away *)
Lemma process_ign cfg w g f i : process_line cfg w (with_ign g f) i = let '(f', o, t) := process_line cfg w f i in (with_ign g f', o, t).
Proof.
  unfold process_line. cbn [with_ign l_text l_date l_fm l_buf l_sess]. destruct (line_date _ _ _ _ _) as [[[lt ld] l] [d|]].
  - destruct (sane_date _ _ _ _); [|reflexivity]. destruct (find_failure _ _ _ _ _ _) as [[lb s] o]. reflexivity.
  - destruct (find_failure _ _ _ _ _ _) as [[lb s] o]. reflexivity.
Qed.
Lemma ignore_none g w q : g_self g = false -> g_set g = [] -> g_list g = [] -> g_cmd g = [] -> g_cache g = None -> in_ignore g w q = (g, Some false).
Proof. intros H1 H2 H3 H4 H5. unfold in_ignore. rewrite H5. unfold check_ignore, remember. rewrite H1, H2, H3, H4. cbn. now rewrite H5. Qed.
Lemma count_nothing w t l : forall f f' evs ok, g_self (l_ign f) = false -> g_set (l_ign f) = [] -> g_list (l_ign f) = [] -> g_cmd (l_ign f) = [] -> g_cache (l_ign f) = None ->
  count_all w f t l = (f', evs, ok) -> evs = map (fun x => (fst x, Z.min t (fw_now w))) l /\ ok = true.
Proof.
  induction l as [|[ip fl] l IH]; cbn [count_all]; intros f f' evs ok H1 H2 H3 H4 H5 E; [now injection E as <- <- <-|].
  rewrite ignore_none in E by assumption. destruct (add_failure _ _ _ _ _) as [fm n]. destruct (count_all w _ t l) as [[f2 evs2] ok2] eqn:E2. injection E as <- <- <-.
  apply IH in E2 as [-> ->]; try (destruct (n >=? _); [destruct (perform_ban _ _ _ _ _) as [[[? ?] ?]|]|]; cbn; assumption).
  split; [|reflexivity]. cbn. f_equal. f_equal. destruct (Z.gtb_spec t (fw_now w)); lia.
Qed.
