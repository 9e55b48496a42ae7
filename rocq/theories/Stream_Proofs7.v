(** Proofs about a jail as it is read, and what its filter tells the server. *)
From Verif Require Import Base Text Backtrack Options_Model Options_Spec Options_Proofs Options_Proofs2 Options_Props Stream_Model Stream_Spec Stream_Proofs Stream_Proofs2 Stream_Proofs3 Stream_Proofs4 Stream_Proofs5 Stream_Proofs6.
Require Import ZifyBool ZifyNat.
Local Open Scope string_scope.
Local Open Scope list_scope.

Ltac nodup := repeat (constructor; [intros I; vm_compute in I; repeat (destruct I as [I|I]; [discriminate I|]); exact I|]); constructor.
Lemma nodup_1st : NoDup (names opts_1st).
Proof. cbn [names map opts_1st fst snd]. nodup. Qed.
Lemma nodup_config : NoDup (names config_opts).
Proof. cbn [names map config_opts filter_opts fst snd app]. nodup. Qed.
Lemma nodup_filter : NoDup (names filter_opts).
Proof. cbn [names map filter_opts fst snd app]. nodup. Qed.
Lemma filter_template t n d : In (t, n, d) filter_opts -> starts_with (tx "known/") n = false /\ n <> tx "__name__" /\ d = VNone.
Proof.
  intros I. unfold filter_opts in I. repeat (destruct I as [I|I]; [injection I as <- <- <-; split; [reflexivity|split; [discriminate|reflexivity]]|]). contradiction.
Qed.

Section WithEnv.
Context (E : env).
Lemma with_actions_ok name o f j : with_actions E name o f = JOk j -> j_name j = name /\ j_opts j = o /\ j_filter j = f
  /\ all_actions E name o (split_with_options (text_of (vget (tx "action") o))) = AOk (j_actions j).
Proof. unfold with_actions. destruct (all_actions _ _ _ _) as [l|e|]; intros H; try discriminate. injection H as <-. auto. Qed.
Lemma apply_auto_get f b init k : k <> tx "logtype" -> dget k (apply_auto f b init) = dget k init.
Proof. intros N. unfold apply_auto. destruct (_ && _); [now apply dget_dset_other|reflexivity]. Qed.
Lemma apply_auto_dwf f b init : dwf init -> dwf (apply_auto f b init).
Proof. intros W. unfold apply_auto. destruct (_ && _); [now apply dwf_dset|exact W]. Qed.
Lemma logtype_no k : In k (names filter_opts) -> k <> tx "logtype".
Proof. intros I ->. vm_compute in I. repeat (destruct I as [I|I]; [discriminate I|]). exact I. Qed.
Lemma filter_kname k : In k (names filter_opts) -> starts_with (tx "known/") k = false /\ k <> tx "__name__".
Proof. intros I. apply in_map_iff in I as ([[t n] d] & <- & I). apply filter_template in I. cbn. tauto. Qed.
Lemma get1_filter name o t : get_options E (e_get1 E name) opts_1st [] true true [] = Some o -> vget (tx "filter") o = VText t -> t <> [] -> e_get1 E name (tx "filter") = GVal t.
Proof.
  intros H V N. destruct (get_options_spec E _ _ _ _ _ _ _ H nodup_1st dwf_nil) as (_ & _ & _ & B).
  specialize (B TString (tx "filter") (VText []) ltac:(right; right; left; reflexivity) eq_refl). unfold vget in V. rewrite B in V. cbn [dget] in V. unfold option_value in V.
  destruct (e_get1 E name (tx "filter")) as [v| | | |]; cbn in V; congruence.
Qed.

Theorem jail_read force name j : jail_get_options E force name = JOk j -> is_enabled force (j_opts j) = true ->
  j_name j = name /\ proper j
  /\ (exists kn, (j_filter j = None -> kn = None) /\ forall t n d, In (t, n, d) config_opts -> dget n (j_opts j) = option_value E true (e_get2 E kn name n) t d)
  /\ all_actions E name (j_opts j) (split_with_options (text_of (vget (tx "action") (j_opts j)))) = AOk (j_actions j)
  /\ (forall fl, j_filter j = Some fl -> dwf (f_opts fl) /\ dwf (f_init fl) /\ exists params f given, filter_of E name params f
       /\ (forall k, ordinary k -> dget k given = orelse (param params k) (orelse (own_init f k) (dget k (j_opts j))))
       /\ forall k, In k (names filter_opts) -> dget k (merge (f_opts fl) (f_init fl)) = file_value E (j_opts j) params f given k).
Proof.
  intros H En. unfold jail_get_options in H. destruct (get_options E (e_get1 E name) opts_1st [] true true []) as [o1|] eqn:G1; [|discriminate].
  destruct (negb (is_enabled force o1)) eqn:En1. { injection H as <-. cbn [j_opts] in En. now rewrite En in En1. }
  assert (Pr : forall kn o j', get_options E (e_get2 E kn name) config_opts [] false true [] = Some o -> j_opts j' = o -> proper j' /\ forall t n d, In (t, n, d) config_opts -> dget n o = option_value E true (e_get2 E kn name n) t d).
  { intros kn o j' G Hj. destruct (get_options_spec E _ _ _ _ _ _ _ G nodup_config dwf_nil) as (W & I & _ & B). split; [split; rewrite Hj; [exact W|exact I]|].
    intros t n d It. rewrite (B t n d It eq_refl). destruct (option_value _ _ _ _ _); reflexivity. }
  assert (NoF : match get_options E (e_get2 E None name) config_opts [] false true [] with None => JRaise | Some o => with_actions E name o None end = JOk j ->
    j_name j = name /\ proper j
  /\ (exists kn, (j_filter j = None -> kn = None) /\ forall t n d, In (t, n, d) config_opts -> dget n (j_opts j) = option_value E true (e_get2 E kn name n) t d)
  /\ all_actions E name (j_opts j) (split_with_options (text_of (vget (tx "action") (j_opts j)))) = AOk (j_actions j) /\ j_filter j = None).
  { intros Q. destruct (get_options E (e_get2 E None name) config_opts [] false true []) as [o|] eqn:G2; [|discriminate]. apply with_actions_ok in Q as (Hn & Ho & Hf & Ha).
    destruct (Pr _ _ j G2 Ho) as [P1 P2]. split; [exact Hn|]. split; [exact P1|]. split; [exists None; split; [reflexivity|rewrite Ho; exact P2]|]. split; [rewrite Ho; exact Ha|exact Hf]. }
  destruct (vget (tx "filter") o1) as [| | |[|c t]] eqn:V.
  1,2,3,4: apply NoF in H as (X1 & X2 & X3 & X4 & X5); repeat (split; [assumption|]); intros fl Hf; congruence.
  destruct (extract_options (c :: t)) as [[fname fopt]|] eqn:X; [|discriminate]. destruct (e_filter E fname) as [f|] eqn:Ef; [|discriminate].
  set (init := apply_auto f (vget (tx "backend") o1) (as_opts fopt)) in H.
  destruct (def_get_options E filter_opts f o1 init true) as [[fo1 i1]|] eqn:D1; [|discriminate].
  destruct (get_combined E filter_opts [] fo1 i1) as [kn|] eqn:GC; [|discriminate].
  destruct (get_options E (e_get2 E (Some kn) name) config_opts [] false true []) as [o|] eqn:G2; [|discriminate].
  destruct (def_get_options E filter_opts f o i1 false) as [[fo2 i2]|] eqn:D2; [|discriminate].
  apply with_actions_ok in H as (Hn & Ho & Hf & Ha). destruct (Pr _ _ j G2 Ho) as [P1 P2].
  split; [exact Hn|]. split; [exact P1|]. split; [exists (Some kn); split; [rewrite Hf; discriminate|rewrite Ho; exact P2]|]. split; [rewrite Ho; exact Ha|].
  intros fl Hfl. rewrite Hf in Hfl. injection Hfl as <-. cbn [f_opts f_init].
  apply C68_options in X as (l & FT & GV). assert (Wp : dwf fopt) by apply GV. assert (W0 : dwf init) by now apply apply_auto_dwf, as_opts_dwf.
  destruct (def_init E _ _ _ _ _ _ _ D1 W0) as [W1 I1]. destruct (def_values E _ _ _ _ _ _ D2 W1 nodup_filter filter_template) as [Wo2 Val].
  destruct (def_init E _ _ _ _ _ _ _ D2 W1) as [W2 _]. split; [exact Wo2|]. split; [exact W2|].
  exists fopt, f, (merge o i1). split.
  { exists (c :: t), fname, l. split; [|auto]. apply (get1_filter name o1); [exact G1|exact V|discriminate]. }
  assert (Gi : forall k, ordinary k -> dget k i1 = orelse (param fopt k) (own_init f k)).
  { intros k (K1 & K2 & K3). rewrite (I1 k K1 K2). unfold init. rewrite apply_auto_get by exact K3. now rewrite as_opts_get. }
  split.
  { intros k K. rewrite merge_get by exact W1. rewrite (Gi k K), Ho. destruct (param fopt k); reflexivity. }
  intros k Ik. rewrite (Val k Ik). unfold file_value. destruct (filter_kname k Ik) as [K1 K2]. rewrite (Gi k) by (split; [exact K1|split; [exact K2|now apply logtype_no]]). rewrite Ho.
  destruct (param fopt k); [reflexivity|]. cbn [orelse]. destruct (own_init f k); reflexivity.
Qed.
Lemma jail_bad force name j : jail_get_options E force name = JBad j -> j_name j = name /\ forall allow, exists e, jail_convert E allow j = COk [CError e] true.
Proof.
  assert (B : forall o e j, e <> [] -> bad name o e = JBad j -> j_name j = name /\ forall allow, exists e, jail_convert E allow j = COk [CError e] true).
  { clear. intros o e j Ne [= <-]. split; [reflexivity|]. intros allow. unfold jail_convert. cbn [j_opts j_name]. unfold vget. rewrite dget_dset_same. destruct e as [|c e]; [now contradict Ne|]. eexists. reflexivity. }
  assert (A1 : forall jo s e, one_action E name jo s = ABad e -> e <> []).
  { intros jo s e H. unfold one_action in H. destruct (extract_options s) as [[an ao]|]; [|injection H as <-; discriminate]. destruct (ends_with _ _); [discriminate|].
    destruct (action_init an name ao) as [n init]. destruct (e_action E an) as [f|]; [|injection H as <-; discriminate]. destruct (def_get_options _ _ _ _ _ _) as [[? ?]|]; discriminate. }
  assert (A2 : forall jo l e, all_actions E name jo l = ABad e -> e <> []).
  { intros jo. induction l as [|s l IH]; intros e H; cbn [all_actions] in H; [discriminate|]. destruct (nonempty (strip s)); [|auto].
    destruct (one_action E name jo (strip s)) as [a|e'|] eqn:O; [|injection H as <-; now apply A1 in O|discriminate]. destruct (all_actions E name jo l) as [r|e'|]; try discriminate. apply IH, H. }
  assert (WA : forall o f j, with_actions E name o f = JBad j -> j_name j = name /\ forall allow, exists e, jail_convert E allow j = COk [CError e] true).
  { intros o f j'. unfold with_actions. destruct (all_actions _ _ _ _) as [l|e|] eqn:AA; intros H; try discriminate. apply A2 in AA. now apply B in H. }
  unfold jail_get_options. intros H. destruct (get_options E (e_get1 E name) opts_1st [] true true []) as [o1|]; [|discriminate]. destruct (negb _); [discriminate|].
  assert (NoF : match get_options E (e_get2 E None name) config_opts [] false true [] with None => JRaise | Some o => with_actions E name o None end = JBad j -> j_name j = name /\ forall allow, exists e, jail_convert E allow j = COk [CError e] true).
  { destruct (get_options E (e_get2 E None name) config_opts [] false true []); [apply WA|discriminate]. }
  destruct (vget (tx "filter") o1) as [| | |[|c t]]; [exact (NoF H)|exact (NoF H)|exact (NoF H)|exact (NoF H)|].
  destruct (extract_options (c :: t)) as [[fname fopt]|]; [|apply B in H; [exact H|discriminate]]. destruct (e_filter E fname) as [f|]; [|apply B in H; [exact H|discriminate]].
  destruct (def_get_options E filter_opts f o1 _ true) as [[fo1 i1]|]; [|discriminate]. destruct (get_combined E filter_opts [] fo1 i1) as [kn|]; [|discriminate].
  destruct (get_options E (e_get2 E (Some kn) name) config_opts [] false true []) as [o|]; [|discriminate].
  destruct (def_get_options E filter_opts f o i1 false) as [[fo2 i2]|]; [|discriminate]. now apply WA in H.
Qed.

(** ** The filter's combined options *)
Lemma convert_filter o : convert_options E filter_opts o =
  match vget (tx "maxlines") o with VNone => o | v => dset (tx "maxlines") (match conv E TInt v with Some x => x | None => VNone end) o end.
Proof. unfold filter_opts. cbn [convert_options]. destruct (vget (tx "maxlines") o); reflexivity. Qed.
Lemma combined_cases tpl ign o i F : get_combined E tpl ign o i = Some F -> merge o i = [] /\ F = [] \/ exists ign' o', e_subst E ign' (merge o i) = Some o' /\ F = convert_options E tpl o'.
Proof.
  unfold get_combined. assert (M : match i with [] => o | _ => merge o i end = merge o i) by now destruct i. rewrite M. clear M. destruct (merge o i) as [|kv m]; intros H.
  - injection H as <-. now left.
  - destruct (e_subst E (ign ++ cond_names (kv :: m)) (kv :: m)) as [[|kv' o']|] eqn:S'; try discriminate. injection H as <-. right. eauto.
Qed.
Lemma combined_get o i F k : get_combined E filter_opts [] o i = Some F -> leaves E k -> k <> tx "maxlines" -> dget k F = dget k (merge o i).
Proof.
  intros H L N. apply combined_cases in H as [[-> ->]|(ign & o' & S' & ->)]; [reflexivity|]. rewrite <- (L _ _ _ S'), convert_filter.
  destruct (vget (tx "maxlines") o'); try reflexivity; now apply dget_dset_other.
Qed.
Lemma combined_int o i F : get_combined E filter_opts [] o i = Some F -> leaves E (tx "maxlines") ->
  (forall v, dget (tx "maxlines") (merge o i) = Some v -> v = VNone \/ exists t, v = VText t) ->
  set_value (dget (tx "maxlines") F) = as_int E (dget (tx "maxlines") (merge o i)).
Proof.
  intros H L T. apply combined_cases in H as [[-> ->]|(ign & o' & S' & ->)]; [reflexivity|]. rewrite <- (L _ _ _ S') in T |- *. rewrite convert_filter. unfold vget.
  destruct (dget (tx "maxlines") o') as [v|] eqn:D; [|now rewrite D]. destruct (T v eq_refl) as [->|[t ->]]; [now rewrite D|]. rewrite dget_dset_same. cbn [conv as_int].
  destruct (e_int E t); reflexivity.
Qed.
Lemma convert_dwf tpl : forall o, dwf o -> dwf (convert_options E tpl o).
Proof.
  induction tpl as [|[[t n] d] tpl IH]; intros o W; [exact W|]. cbn [convert_options]. destruct t; [auto| |]; (destruct (vget n o); auto; apply IH; now apply dwf_dset).
Qed.
Lemma combined_dwf tpl ign o i F : gives_dicts E -> dwf o -> get_combined E tpl ign o i = Some F -> dwf F.
Proof. intros G W H. apply combined_cases in H as [[_ ->]|(ign' & o' & S' & ->)]; [apply dwf_nil|]. apply convert_dwf. apply G in S'; [exact S'|]. now apply merge_dwf. Qed.
Lemma filter_values_ex allow j s : gives_dicts E -> (forall fl, j_filter j = Some fl -> dwf (f_opts fl)) -> jail_convert E allow j = COk s false -> exists F, filter_values E j F.
Proof.
  intros G Wf H. unfold filter_values. destruct (j_filter j) as [f|] eqn:Ef; [|exists []; split; [apply dwf_nil|reflexivity]].
  destruct (get_combined E filter_opts [] (f_opts f) (f_init f)) as [F|] eqn:GC; [exists F; split; [apply combined_dwf in GC; auto|reflexivity]|].
  exfalso. unfold jail_convert in H. rewrite Ef in H. unfold filter_convert in H. rewrite GC in H. destruct (vget (tx "config-error") (j_opts j)) as [| | |[|c t]]; discriminate.
Qed.

(** ** Missing log files *)
Lemma loop_missing name J allow t skip : (uses_journal J = false) -> flat_map (path_cmds E name) (split newline t) = [] -> truthy (vget (tx "skip_if_nologs") J) = skip ->
  (allow = false \/ skip = true) -> forall o s s2, In (tx "logpath", VText t) o -> (forall v, In (tx "logpath", v) o -> v = VText t) ->
  jail_loop E name J allow o s s2 = if skip then LSkip else LRaise.
Proof.
  intros U Nf Sk Al. induction o as [|[k v] o IH]; intros s s2 I A; [contradiction|]. cbn [jail_loop].
  assert (Sd : starts_with (tx "systemd") (text_of (match dget (tx "backend") J with Some b => b | None => VText (tx "auto") end)) = false).
  { change (systemd J = false). unfold uses_journal in U. unfold systemd, backend_of. destruct (dget (tx "backend") J) as [[| | |b]|]; try reflexivity. exact U. }
  destruct (eqb_spec k (tx "logpath")) as [->|Nk].
  - rewrite Sd. rewrite (A v (or_introl eq_refl)). rewrite Nf, Sk. destruct skip; [now rewrite andb_false_r|]. destruct Al as [->|[=]]. reflexivity.
  - assert (I' : In (tx "logpath", VText t) o) by (destruct I as [[= -> _]|I]; [now contradict Nk|exact I]). assert (A' : forall v, In (tx "logpath", v) o -> v = VText t) by (intros v' Iv; apply A; now right).
    destruct (eqb k (tx "ignoreip")); [now apply IH|]. destruct (inb k ignore_opts); now apply IH.
Qed.
Lemma last_blank_inv l a b : last_blank l a b -> l = a ++ " "%char :: b /\ ~ In " "%char b.
Proof. intros H. destruct H. auto. Qed.
Lemma last_blank_unique a b a2 b2 : a ++ " "%char :: b = a2 ++ " "%char :: b2 -> ~ In " "%char b -> ~ In " "%char b2 -> a = a2 /\ b = b2.
Proof.
  revert a2. induction a as [|x a IH]; intros [|y a2] Q Nb Nb2; cbn in Q.
  - injection Q as ->. auto.
  - injection Q as <- ->. exfalso. apply Nb. apply in_app_iff. right. now left.
  - injection Q as -> <-. exfalso. apply Nb2. apply in_app_iff. right. now left.
  - injection Q as -> Q. destruct (IH a2 Q Nb Nb2) as [-> ->]. auto.
Qed.
Lemma log_files_none name ls : log_files E ls [] -> flat_map (path_cmds E name) ls = [].
Proof.
  intros H. remember [] as r eqn:Er. induction H as [|l p t ls r P H IH]; [reflexivity|]. apply app_eq_nil in Er as [Er ->]. cbn [flat_map]. rewrite IH by reflexivity. rewrite app_nil_r.
  apply map_eq_nil in Er. unfold path_cmds. destruct (rsplit l) as [[a b]|] eqn:R.
  - apply rsplit_some, last_blank_inv in R as [Hl Nb]. destruct P as [l N|l p t LB]; [exfalso; apply N; rewrite Hl; apply in_app_iff; right; now left|].
    apply last_blank_inv in LB as [Hl2 Nb2]. rewrite Hl in Hl2. destruct (last_blank_unique _ _ _ _ Hl2 Nb Nb2) as [-> ->]. unfold glob_. rewrite Er. reflexivity.
  - apply rsplit_none in R. destruct P as [l N|l p t LB]; [unfold glob_; now rewrite Er|]. apply last_blank_inv in LB as [-> _]. exfalso. apply R, in_app_iff. right. now left.
Qed.
Lemma missing_logs allow j t : dwf (j_opts j) -> dget (tx "config-error") (j_opts j) = None -> dget (tx "logpath") (j_opts j) = Some (VText t) -> uses_journal (j_opts j) = false ->
  log_files E (split nl t) [] ->
  (dget (tx "skip_if_nologs") (j_opts j) = Some (VBool true) -> forall s e, jail_convert E allow j = COk s e -> e = true /\ exists m, s = [CError m])
  /\ (dget (tx "skip_if_nologs") (j_opts j) = Some (VBool false) -> allow = false -> jail_convert E allow j = CRaise).
Proof.
  intros W Ce Lp U LF. apply (log_files_none (j_name j)) in LF. pose proof (dget_In _ _ _ Lp) as I.
  assert (A : forall v, In (tx "logpath", v) (j_opts j) -> v = VText t) by (intros v Iv; apply (In_dget _ _ _ W) in Iv; congruence).
  unfold jail_convert, vget. rewrite Ce. split.
  - intros Sk s e H. assert (T : truthy (vget (tx "skip_if_nologs") (j_opts j)) = true) by (unfold vget; now rewrite Sk).
    destruct (match j_filter j with Some f => filter_convert E (j_name j) f | None => Some [] end); [|discriminate]. destruct (fill_stream _ _ _ _ _) as [s1|]; [|discriminate].
    rewrite (loop_missing (j_name j) (j_opts j) allow t true U LF T (or_intror eq_refl) _ s1 [] I A) in H. injection H as <- <-. split; [reflexivity|eexists; reflexivity].
  - intros Sk ->. assert (T : truthy (vget (tx "skip_if_nologs") (j_opts j)) = false) by (unfold vget; now rewrite Sk).
    destruct (match j_filter j with Some f => filter_convert E (j_name j) f | None => Some [] end); [|reflexivity]. destruct (fill_stream _ _ _ _ _) as [s1|]; [|reflexivity].
    now rewrite (loop_missing (j_name j) (j_opts j) false t false U LF T (or_introl eq_refl) _ s1 [] I A).
Qed.
End WithEnv.

(** ** Names of actions *)
Lemma starts_prefix p s : starts_with p s = true <-> has_prefix p s.
Proof.
  unfold starts_with, has_prefix. split.
  - intros H. apply eqb_true in H. exists (skipn (length p) s). rewrite <- H at 1. symmetry. apply firstn_skipn.
  - intros [r ->]. rewrite firstn_app, Nat.sub_diag, firstn_O, app_nil_r, firstn_all. apply eqb_refl.
Qed.
Lemma prefix_skip p s : starts_with p s = true -> s = p ++ skipn (length p) s.
Proof. intros H. unfold starts_with in H. apply eqb_true in H. rewrite <- H at 1. symmetry. apply firstn_skipn. Qed.
Definition suffix (jail n : text) : text := if starts_with jail n then skipn (length jail) n else tx "-" ++ n.
Lemma action_name file jail init : dget (tx "actname") init = None -> fst (action_init file jail init) = file ++ suffix jail (own_name jail init).
Proof.
  intros A. unfold action_init, own_name, suffix. destruct (dget (tx "name") init) as [n|] eqn:D.
  - rewrite A. destruct (eqb_spec n jail) as [->|N]; cbn [fst]; [|reflexivity].
    replace (starts_with jail jail) with true by (symmetry; apply starts_prefix; exists []; now rewrite app_nil_r). rewrite skipn_all. now rewrite app_nil_r.
  - rewrite dget_dset_other by discriminate. rewrite A, eqb_refl. cbn [fst].
    replace (starts_with jail jail) with true by (symmetry; apply starts_prefix; exists []; now rewrite app_nil_r). rewrite skipn_all. now rewrite app_nil_r.
Qed.
Lemma suffix_eq jail a b : suffix jail a = suffix jail b <-> a = b \/ ~ has_prefix jail b /\ a = jail ++ tx "-" ++ b \/ ~ has_prefix jail a /\ b = jail ++ tx "-" ++ a.
Proof.
  unfold suffix. destruct (starts_with jail a) eqn:A, (starts_with jail b) eqn:B.
  - split.
    + intros H. left. rewrite (prefix_skip _ _ A), (prefix_skip _ _ B). now rewrite H.
    + intros [->|[[N _]|[N _]]]; [reflexivity| |]; exfalso; apply N; now apply starts_prefix.
  - assert (Nb : ~ has_prefix jail b) by (intros H; apply starts_prefix in H; congruence). split.
    + intros H. right. left. split; [exact Nb|]. rewrite (prefix_skip _ _ A). now rewrite H.
    + intros [->|[[_ ->]|[N _]]]; [congruence| |exfalso; apply N; now apply starts_prefix]. rewrite skipn_app, skipn_all, Nat.sub_diag. reflexivity.
  - assert (Na : ~ has_prefix jail a) by (intros H; apply starts_prefix in H; congruence). split.
    + intros H. right. right. split; [exact Na|]. rewrite (prefix_skip _ _ B). now rewrite <- H.
    + intros [->|[[N _]|[_ ->]]]; [congruence|exfalso; apply N; now apply starts_prefix|]. rewrite skipn_app, skipn_all, Nat.sub_diag. reflexivity.
  - assert (Na : ~ has_prefix jail a) by (intros H; apply starts_prefix in H; congruence). assert (Nb : ~ has_prefix jail b) by (intros H; apply starts_prefix in H; congruence). split.
    + intros H. left. now apply app_inv_head in H.
    + intros [->|[[_ ->]|[_ ->]]]; [reflexivity| |]; exfalso; [apply Na|apply Nb]; eexists; reflexivity.
Qed.
