(** fail2ban-regex and the server. *)
From Verif Require Import Base Text IPAddr_Model Lines_Model Session_Model Filter_Model Tool_Model Tool_Spec Tool_Proofs.
Local Open Scope string_scope. Local Open Scope list_scope. Local Open Scope Z_scope.

(** * Groups *)
Lemma update_no k h : forall g, ~ In k (map fst h) -> dget k (update_all g h) = dget k g.
Proof.
  unfold update_all. induction h as [|[a v] h IH]; intros g N; [reflexivity|]. cbn [fold_left fst snd]. cbn in N. rewrite IH by tauto. apply dget_dset_other. intros ->. tauto.
Qed.
Lemma update_has k v h : NoDup (map fst h) -> In (k, v) h -> forall g, dget k (update_all g h) = Some v.
Proof.
  unfold update_all. induction h as [|[a u] h IH]; intros ND I1 g; [destruct I1|]. cbn in ND. inversion_clear ND as [|? ? N ND']. cbn [fold_left fst snd]. destruct I1 as [E|I1].
  - injection E as -> ->. change (dget k (update_all (dset k v g) h) = Some v). rewrite update_no by exact N. apply dget_dset_same.
  - now apply IH.
Qed.
Lemma gtext_none k g : ~ has_group k g -> gtext g k = None.
Proof. intros N. unfold gtext. replace (dget k g) with (@None (option text)); [reflexivity|]. symmetry. apply dget_None. exact N. Qed.
Lemma gtext_update_none k g h : ~ has_group k g -> ~ has_group k h -> gtext (update_all g h) k = None.
Proof. intros A B. unfold gtext. rewrite (update_no k h g B). change (gtext g k = None). now apply gtext_none. Qed.
Lemma has_group_del k j g : has_group k (ddel j g) -> has_group k g.
Proof.
  unfold has_group. induction g as [|[a v] g IH]; [exact (fun x => x)|]. cbn [ddel]. destruct (eqb j a); [now right|]. cbn. intros [E|E]; [now left|right; now apply IH].
Qed.

(** * One match: no session, no nofail, and somebody is named *)
Definition fine (g : groups) : Prop := gtext g "mlfid" = None /\ truthy g "nofail" = false /\ exists k v, In k ["ip4"; "ip6"; "dns"; "fid"] /\ gtext g k = Some v.
Lemma identify_fine raw dns g m : fine g -> match fst (identify raw dns false (mkFail g [] m [] false None)) with
  | VFound ids fl => truthy (f_groups fl) "nofail" = false /\ (raw = true \/ (forall n, dns n <> []) -> ids <> [])
  | VError => True | _ => False end.
Proof.
  intros (_ & NF & k & v & K & G). unfold identify. cbn [f_groups].
  repeat match goal with
  | |- context[match gtext g "ip4" with _ => _ end] => destruct (gtext g "ip4") eqn:?
  | |- context[match gtext g "ip6" with _ => _ end] => destruct (gtext g "ip6") eqn:?
  | |- context[match gtext g "dns" with _ => _ end] => destruct (gtext g "dns") eqn:?
  | |- context[match cidr_of ?a ?b with _ => _ end] => destruct (cidr_of a b)
  | |- context[match ip_new ?a ?b with _ => _ end] => destruct (ip_new a b)
  | |- context[match gtext g "fid" with _ => _ end] => destruct (gtext g "fid") eqn:?
  | |- context[if eqb ?a ?b then _ else _] => destruct (eqb a b)
  | |- context[if raw then _ else _] => destruct raw eqn:?
  end; cbn [fst f_groups with_ip]; try exact I; try (split; [exact NF|intros _; discriminate]).
  all: first [split; [exact NF|]; intros [D|D]; [discriminate|apply D] | cbn in K; repeat (destruct K as [<- |K]; [congruence|]); destruct K].
Qed.
Lemma matches_fine all c now raw dns g m : fine g ->
  match take_match c now raw dns g m with
  | (c', VFound ids fl) => c' = c /\ tool_match all c now raw dns g m = (c, TFound (map Some ids) fl) /\ truthy (f_groups fl) "nofail" = false
                           /\ (raw = true \/ (forall n, dns n <> []) -> ids <> [])
  | (_, VError) => tool_match all c now raw dns g m = (c, TError)
  | _ => False
  end.
Proof.
  intros F. pose proof (identify_fine raw dns g m F) as H. destruct F as (M & _). unfold take_match, tool_match. rewrite M.
  destruct (identify raw dns false _) as [v f]. cbn [fst] in *. destruct v; try destruct H; cbn [of_verdict]; repeat split; assumption.
Qed.

(** * The loop *)
Lemma ignore_iff cfg buf f : single_line cfg -> ignore_line cfg buf f = negb (Nat.eqb (length (matching (c_ignore cfg) 0 buf)) 0)
  /\ forall all, Nat.eqb (length (ignoring all cfg buf f)) 0 = Nat.eqb (length (matching (c_ignore cfg) 0 buf)) 0.
Proof.
  intros S1. assert (ML : Nat.ltb 1 (c_maxlines cfg) = false) by (apply Nat.ltb_ge; exact S1). unfold ignore_line, ignoring. rewrite ML.
  replace (match f with Some _ => buf | None => buf end) with buf by now destruct f. split.
  - assert (X : forall l n, existsb (fun p : pattern => match p buf with Some _ => true | None => false end) l = negb (Nat.eqb (length (matching l n buf)) 0)).
    { induction l as [|p l IH]; intros n; [reflexivity|]. cbn. destruct (p buf); [reflexivity|]. cbn. apply IH. }
    apply X.
  - intros all. destruct all; [reflexivity|]. now destruct (matching (c_ignore cfg) 0 buf).
Qed.
(** what the server finds with what the tool finds *)
Definition served (r : result) (fl : list (ipaddr * fail)) (resolves : Prop) : Prop :=
  existsb nofail (r_found r) = false /\
  (r_ign r <> [] -> r_found r = [] /\ fl = []) /\ (r_found r = [] -> fl = []) /\
  (resolves -> r_found r <> [] -> fl <> [] /\ exists n later, r_found r = map (fun e => (n, Some (fst e), snd e)) fl ++ later /\ Forall (fun e => n < fst (fst e))%nat later).

Lemma loop_ignored cfg w pre regs buf l0 : single_line cfg -> length l0 = 1%nat -> matching (c_ignore cfg) 0 buf <> [] ->
  forall n lb s, lines_buf lb = buf -> exists r, tool_loop true cfg w l0 pre regs n buf lb s = Some r /\ r_found r = [] .
Proof.
  intros S1 L0 M. assert (ML : Nat.ltb 1 (c_maxlines cfg) = false) by (apply Nat.ltb_ge; exact S1).
  induction regs as [|p regs IH]; intros n lb s E; cbn [tool_loop]; [eexists; split; reflexivity|].
  destruct (search p buf l0) as [f|]; [|now apply IH]. rewrite ML. cbn [negb orb].
  destruct (ignore_iff cfg buf (Some f) S1) as [_ IG]. specialize (IG true). destruct (ignoring true cfg buf (Some f)) as [|i is].
  - destruct (matching (c_ignore cfg) 0 buf); [congruence|discriminate].
  - rewrite E. destruct (IH (S n) lb s E) as (r & R & F). rewrite R. eexists. split; [reflexivity|]. cbn. exact F.
Qed.
Lemma server_ignored cfg w pre regs buf l0 : single_line cfg -> matching (c_ignore cfg) 0 buf <> [] ->
  forall lb s, exists lb' s', find_loop cfg w true l0 pre regs buf lb s = (lb', s', Failures []).
Proof.
  intros S1 M. induction regs as [|p regs IH]; intros lb s; cbn [find_loop]; [now do 2 eexists|].
  destruct (search p buf l0) as [f|]; [|apply IH]. destruct (ignore_iff cfg buf (Some f) S1) as [-> _]. destruct (matching (c_ignore cfg) 0 buf); [congruence|]. cbn. now do 2 eexists.
Qed.
Lemma loop_index cfg w pre regs buf l0 : forall n lb s r, tool_loop true cfg w l0 pre regs n buf lb s = Some r -> Forall (fun e => n <= fst (fst e))%nat (r_found r).
Proof.
  revert buf. induction regs as [|p regs IH]; intros buf n lb s r; cbn [tool_loop].
  - intros H. injection H as <-. constructor.
  - assert (MO : forall x, Forall (fun e : entry => S n <= fst (fst e))%nat x -> Forall (fun e : entry => n <= fst (fst e))%nat x) by (intros x; apply Forall_impl; intros; lia).
    destruct (search p buf l0) as [f|]; [|intros H; apply MO; now apply IH in H].
    destruct (ignoring true cfg buf (Some f)) as [|i is].
    + destruct (tool_match true s _ _ _ _ _) as [s' []]; try discriminate.
      * intros H. injection H as <-. constructor.
      * intros H. apply MO. now apply IH in H.
      * destruct (tool_loop _ _ _ _ _ _ _ _ _ _) as [r0|] eqn:E; [|discriminate]. cbn. intros H. injection H as <-. cbn [r_found]. apply Forall_app. split.
        -- apply Forall_forall. intros e I1. apply in_map_iff in I1 as (x & <- & _). cbn. lia.
        -- apply MO. now apply IH in E.
    + destruct (tool_loop _ _ _ _ _ _ _ _ _ _) as [r0|] eqn:E; [|discriminate]. cbn. intros H. injection H as <-. cbn [r_found app]. apply MO. now apply IH in E.
Qed.
Lemma loop_nofail cfg w pre regs buf l0 : single_line cfg -> matching (c_ignore cfg) 0 buf = [] -> length l0 = 1%nat ->
  (forall p m, In p regs -> p buf = Some m -> fine (update_all pre (m_groups m))) -> forall n lb s r, tool_loop true cfg w l0 pre regs n buf lb s = Some r ->
  existsb nofail (r_found r) = false /\ r_ign r = [].
Proof.
  intros S1 M L0. assert (ML : Nat.ltb 1 (c_maxlines cfg) = false) by (apply Nat.ltb_ge; exact S1).
  induction regs as [|p regs IH]; intros Q n lb s r; cbn [tool_loop]; [intros H; injection H as <-; now split|].
  assert (Q' : forall p m, In p regs -> p buf = Some m -> fine (update_all pre (m_groups m))) by (intros; apply (Q p0); [now right|assumption]).
  destruct (search p buf l0) as [f|] eqn:SE; [|now apply IH]. rewrite ML. cbn [negb orb].
  assert (PM : p buf = Some (fd_match f)) by (unfold search in SE; destruct (p buf) as [m|]; [|discriminate]; rewrite L0 in SE; injection SE as <-; reflexivity).
  destruct (ignore_iff cfg buf (Some f) S1) as [_ IG]. specialize (IG true). rewrite M in IG. destruct (ignoring true cfg buf (Some f)); [|discriminate].
  pose proof (matches_fine true s (fw_now w) (c_raw cfg) (fw_dns w) _ (fd_matched f) (Q p _ (or_introl eq_refl) PM)) as T.
  destruct (take_match _ _ _ _ _ _) as [c' v]. destruct v as [| | | |ids fl]; try contradiction.
  - rewrite T. discriminate.
  - destruct T as (-> & -> & NF & _). destruct (tool_loop _ _ _ _ _ _ _ _ _ _) as [r0|] eqn:E; [|discriminate]. cbn [more option_map]. intros H. injection H as <-. cbn [r_found r_ign app].
    destruct (IH Q' _ _ _ _ E) as [A B]. split; [|exact B]. rewrite existsb_app, A, orb_false_r. apply Bool.not_true_iff_false. rewrite existsb_exists.
    intros (x & I1 & N). apply in_map_iff in I1 as (y & <- & _). unfold nofail in N. cbn in N. congruence.
Qed.
Lemma loop_served cfg w pre regs buf l0 : single_line cfg -> length l0 = 1%nat ->
  (forall p m, In p regs -> p buf = Some m -> fine (update_all pre (m_groups m))) ->
  forall n lb s r lb2 s2, lines_buf lb = buf -> tool_loop true cfg w l0 pre regs n buf lb s = Some r ->
  exists lb' s' fl, find_loop cfg w true l0 pre regs buf lb2 s2 = (lb', s', Failures fl) /\ served r fl (resolves cfg w).
Proof.
  intros S1 L0 Q n lb s r lb2 s2 LB TL. assert (ML : Nat.ltb 1 (c_maxlines cfg) = false) by (apply Nat.ltb_ge; exact S1).
  destruct (list_eq_dec Nat.eq_dec (matching (c_ignore cfg) 0 buf) []) as [M|M].
  - revert n lb s lb2 s2 LB TL. induction regs as [|p regs IH]; intros n lb s lb2 s2 LB TL.
    + cbn in TL. injection TL as <-. cbn. do 3 eexists. split; [reflexivity|]. unfold served. cbn. repeat split; congruence.
    + assert (Q' : forall p m, In p regs -> p buf = Some m -> fine (update_all pre (m_groups m))) by (intros; apply (Q p0); [now right|assumption]).
      pose proof (loop_nofail cfg w pre (p :: regs) buf l0 S1 M L0 Q n lb s r TL) as [NF NI].
      cbn [tool_loop find_loop] in *. destruct (search p buf l0) as [f|] eqn:SE; [|now apply (IH Q' (S n) lb s)].
      assert (PM : p buf = Some (fd_match f)) by (unfold search in SE; destruct (p buf) as [m|]; [|discriminate]; rewrite L0 in SE; injection SE as <-; reflexivity).
      destruct (ignore_iff cfg buf (Some f) S1) as [-> IG]. specialize (IG true). rewrite M in IG |- *. cbn [length Nat.eqb negb]. destruct (ignoring true cfg buf (Some f)); [|discriminate].
      rewrite ML in TL. cbn [negb orb] in TL.
      pose proof (Q p _ (or_introl eq_refl) PM) as FI.
      pose proof (matches_fine true s (fw_now w) (c_raw cfg) (fw_dns w) _ (fd_matched f) FI) as T.
      pose proof (matches_fine true s2 (fw_now w) (c_raw cfg) (fw_dns w) _ (fd_matched f) FI) as T2.
      assert (SAME : snd (take_match s (fw_now w) (c_raw cfg) (fw_dns w) (update_all pre (m_groups (fd_match f))) (fd_matched f))
                   = snd (take_match s2 (fw_now w) (c_raw cfg) (fw_dns w) (update_all pre (m_groups (fd_match f))) (fd_matched f)))
        by (unfold take_match; destruct FI as (-> & _); reflexivity).
      destruct (take_match s _ _ _ _ _) as [c1 v1]. destruct (take_match s2 _ _ _ _ _) as [c2 v2]. cbn [snd] in SAME. subst v2.
      destruct v1 as [| | | |ids fl]; try contradiction; [rewrite T in TL; discriminate|].
      destruct T as (-> & TM & NT & RS). rewrite TM in TL. cbn [negb].
      destruct (tool_loop true cfg w l0 pre regs (S n) buf lb s) as [r0|] eqn:E; [|discriminate]. cbn [more option_map] in TL. injection TL as <-.
      do 3 eexists. split; [reflexivity|]. cbn [r_ign r_found app] in *. unfold served. cbn [r_ign r_found]. split; [exact NF|]. split; [congruence|]. split.
      * intros F0. apply app_eq_nil in F0 as [F0 _]. destruct ids; [reflexivity|discriminate].
      * intros RE _. specialize (RS RE). split; [destruct ids; [congruence|discriminate]|]. exists n, (r_found r0). split.
        -- f_equal. rewrite !map_map. apply map_ext. reflexivity.
        -- apply (loop_index _ _ _ _ _ _ _ _ _ _ E).
  - destruct (loop_ignored cfg w pre regs buf l0 S1 L0 M n lb s LB) as (r' & R & F). rewrite R in TL. injection TL as ->.
    destruct (server_ignored cfg w pre regs buf l0 S1 M lb2 s2) as (lb' & s' & E). exists lb', s', []. split; [exact E|]. unfold served. rewrite F. repeat split; congruence.
Qed.
Lemma simple_fine cfg pre m : simple_groups pre \/ pre = [] -> simple_groups (m_groups m) -> (exists k v, In k ["ip4"; "ip6"; "dns"; "fid"] /\ In (k, Some v) (m_groups m)) ->
  fine (update_all (ddel "content" pre) (m_groups m)) /\ (cfg : fcfg) = cfg.
Proof.
  intros P (A & B & C) (k & v & K & G). split; [|reflexivity].
  assert (X : forall j, In j ["mlfid"; "nofail"] -> ~ has_group j (ddel "content" pre)).
  { intros j J H. apply has_group_del in H. destruct P as [(PA & PB & _)| ->]; [|destruct H]. cbn in J. destruct J as [<- |[<- |[]]]; contradiction. }
  split; [apply gtext_update_none; [apply X; now left|exact A]|]. split.
  - unfold truthy. rewrite gtext_update_none; [reflexivity| |exact B]. apply X. right. now left.
  - exists k, v. split; [exact K|]. unfold gtext. now rewrite (update_has k (Some v) _ C G).
Qed.
Lemma find_served cfg w lb s l r lb2 s2 : single_line cfg -> simple cfg -> tool_find true cfg w lb s l = Some r ->
  exists lb' s' fl, find_failure cfg w lb2 s2 l true = (lb', s', Failures fl) /\ served r fl (resolves cfg w).
Proof.
  intros S1 [SP SF]. assert (ML : Nat.ltb 1 (c_maxlines cfg) = false) by (apply Nat.ltb_ge; exact S1). unfold tool_find, find_failure. rewrite ML.
  set (c := negb (Nat.eqb (length (c_ignore cfg)) 0) && (Z.of_nat (length (c_ignore cfg)) <? Z.of_nat (length (c_fail cfg)) - 2)).
  destruct (ignore_iff cfg (lines_buf [l]) None S1) as [-> IG]. specialize (IG true).
  set (early := if c then _ else _). assert (EA : early = [] <-> c && negb (Nat.eqb (length (matching (c_ignore cfg) 0 (lines_buf [l]))) 0) = false).
  { unfold early. destruct c; cbn [andb]; [|tauto]. rewrite <- IG. destruct (ignoring true cfg (lines_buf [l]) None); cbn; intuition congruence. }
  destruct early as [|e es].
  - rewrite (proj1 EA eq_refl).
    assert (G : forall pre m p, simple_groups pre \/ pre = [] -> In p (c_fail cfg) -> forall buf, p buf = Some m -> fine (update_all (ddel "content" pre) (m_groups m))).
    { intros pre m p P I1 buf PB. destruct (SF p buf m I1 PB) as [A B]. now apply (simple_fine cfg). }
    destruct (c_pref cfg) as [p|] eqn:PR.
    + destruct (search p (lines_buf [l]) [l]) as [f|] eqn:SE.
      * assert (PM : p (lines_buf [l]) = Some (fd_match f)) by (unfold search in SE; destruct (p (lines_buf [l])) as [m|]; [|discriminate]; injection SE as <-; reflexivity).
        pose proof (SP p _ _ eq_refl PM) as SG.
        destruct (gtext (m_groups (fd_match f)) "content") as [[|a b]|]; intros TL; (eapply loop_served; [exact S1|reflexivity| |reflexivity|exact TL]); intros p0 m I1 PB; apply (G _ m p0 (or_introl SG) I1 _ PB).
      * intros H. injection H as <-. do 3 eexists. split; [reflexivity|]. unfold served. cbn. repeat split; congruence.
    + intros TL. eapply loop_served; [exact S1|reflexivity| |reflexivity|exact TL]. intros p0 m I1 PB. apply (G [] m p0 (or_intror eq_refl) I1 _ PB).
  - replace (c && negb (Nat.eqb (length (matching (c_ignore cfg) 0 (lines_buf [l]))) 0)) with true.
    + intros H. injection H as <-. do 3 eexists. split; [reflexivity|]. unfold served. cbn. repeat split; congruence.
    + symmetry. destruct (c && negb (Nat.eqb (length (matching (c_ignore cfg) 0 (lines_buf [l]))) 0)) eqn:X; [reflexivity|]. assert (Y := proj2 EA eq_refl). discriminate.
Qed.
Lemma served_kind r fl P : served r fl P -> (kind_of r <> KMatched -> fl = []) /\
  (P -> kind_of r = KMatched -> fl <> [] /\ exists n later, r_found r = map (fun e => (n, Some (fst e), snd e)) fl ++ later /\ Forall (fun e => n < fst (fst e))%nat later).
Proof.
  intros (A & B & C & D). unfold kind_of. rewrite A. cbn [orb]. split.
  - intros K. destruct (r_ign r) as [|i is] eqn:I0; [|apply B; discriminate]. cbn in K. apply C. destruct (r_found r) as [|e es]; [reflexivity|].
    cbn in A, K. apply orb_false_iff in A as [A _]. rewrite A in K. cbn in K. congruence.
  - intros X K. apply D; [exact X|]. intros F. rewrite F in K. destruct (Nat.eqb (length (r_ign r)) 0); discriminate.
Qed.
Lemma dated_line w oper lt ld i d : date_of w i = Some d -> exists m l, (forall lt ld oper, line_date w oper lt ld i = (m, Some d, l, Some d)) /\ line_date w oper lt ld i = (m, Some d, l, Some d).
Proof.
  intros H. assert (X : exists m l, forall lt ld oper, line_date w oper lt ld i = (m, Some d, l, Some d)).
  { destruct i as [t|[[a b] c] d0]; cbn [date_of] in H.
    - destruct (fw_detect w t) as [[[s e] d0]|] eqn:E; [|discriminate]. destruct (Nat.ltb s e && Nat.ltb s (length t)) eqn:B; [|discriminate]. subst d0.
      apply andb_true_iff in B as [B1 B2]. apply Nat.ltb_lt in B1, B2. exists (firstn (e - s) (skipn s t)), (firstn s t, firstn (e - s) (skipn s t), skipn e t). intros. unfold line_date. rewrite E.
      destruct (firstn (e - s) (skipn s t)) as [|x y] eqn:F; [|reflexivity]. exfalso. apply (f_equal (@length ascii)) in F. rewrite firstn_length, skipn_length in F. cbn in F. lia.
    - injection H as ->. exists b, (a, b, c). reflexivity. }
  destruct X as (m & l & X). exists m, l. split; [exact X|apply X].
Qed.

Lemma line_served o cfg w T i t T' k f d : o_all o = true -> single_line cfg -> simple cfg -> date_of w i = Some d ->
  taken cfg (fw_now w) (FailManager_Model.fm_time (l_fm f)) d -> tool_line o cfg w T i t = Some (T', k) ->
  exists f' fl time, process_line cfg w f i = (f', Failures fl, time) /\ (k <> KMatched -> fl = []) /\
    (resolves cfg w -> k = KMatched -> fl <> [] /\
      exists n later, fail_hits (t_stats T') = fail_hits (t_stats T) ++ repeat n (length fl) ++ later /\ Forall (fun m => n < m)%nat later).
Proof.
  intros OA S1 SI DA TA TL. unfold tool_line in TL. destruct (dated_line w false (t_text T) (t_date T) i d DA) as (m & l & LD & LD0). rewrite LD0, OA in TL.
  destruct (tool_find true cfg w (t_buf T) (t_sess T) l) as [r|] eqn:TF; [|discriminate].
  destruct (find_served cfg w (t_buf T) (t_sess T) l r (l_buf f) (l_sess f) S1 SI TF) as (lb' & s' & fl & FF & SV). apply served_kind in SV as [A B].
  replace (Nat.ltb 1 (c_maxlines cfg)) with false in TL by (unfold single_line in S1; symmetry; apply Nat.ltb_ge; lia). injection TL as <- <-.
  unfold process_line. rewrite LD. assert (SD : exists d', sane_date (c_operation cfg) (FailManager_Model.fm_time (l_fm f)) (fw_now w) d = Some d').
  { unfold sane_date. destruct TA as [-> |TA]; [now eexists|]. destruct (c_operation cfg); [now eexists|]. destruct (Z.ltb_spec d (fw_now w - FailManager_Model.fm_time (l_fm f))); [lia|now eexists]. }
  destruct SD as (d' & ->). rewrite FF. do 3 eexists. split; [reflexivity|]. split; [exact A|]. intros R K. destruct (B R K) as (NE & n & later & E & L). split; [exact NE|].
  exists n, (map (fun e => fst (fst e)) later). split.
  - cbn [t_stats]. replace (fail_hits (count_line o (kind_of r) t _)) with (fail_hits (t_stats T) ++ map (fun e : entry => fst (fst e)) (r_found r)) by (now destruct (kind_of r)).
    f_equal. rewrite E, map_app, map_map. f_equal. clear. induction fl as [|e fl IH]; [reflexivity|]. cbn [map length repeat fst snd]. f_equal. exact IH.
  - apply Forall_forall. intros x I1. apply in_map_iff in I1 as (y & <- & I1). now apply (proj1 (Forall_forall _ _) L).
Qed.
