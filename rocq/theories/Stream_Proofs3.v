(** Proofs about the commands of one jail: the whole stream. *)
From Verif Require Import Base Text Backtrack Options_Model Options_Spec Options_Proofs Options_Proofs2 Stream_Model Stream_Spec Stream_Proofs Stream_Proofs2.
Require Import ZifyBool ZifyNat.
Local Open Scope string_scope.
Local Open Scope list_scope.

Lemma last_of_app {A} (a b : list A) : last_of (a ++ b) = orelse (last_of b) (last_of a).
Proof. unfold last_of. rewrite rev_app_distr. destruct (rev b); reflexivity. Qed.
Lemma last_opt {A} (x : option A) : last_of (opt_list x) = x.
Proof. destruct x; reflexivity. Qed.
Lemma forall_without k (P : cmd -> Prop) s : Forall P s -> (forall c, P c -> key_of c <> Some k) -> without k s.
Proof. intros F H. eapply Forall_impl; [|exact F]. exact H. Qed.
Lemma not_sub k d : substring k d = false -> forall k', substring k' d = true -> k' <> k.
Proof. congruence. Qed.

Section WithEnv.
Context (E : env) (allow : bool) (j : jail) (F : opts) (s : list cmd).
Context (HC : jail_convert E allow j = COk s false) (HF : filter_values E j F) (HP : proper j).
Notation name := (j_name j). Notation J := (j_opts j).
Notation ups := (ups name). Notation prios := (prios name). Notation rests := (rests E name). Notation others := (others name).
Notation logs := (plogs E name J J).

Lemma structure : exists rF rJ acts, rests F = Some rF /\ rests J = Some rJ /\ actions_convert E name (j_actions j) = Some acts
  /\ s = CAdd name (backend_of J) :: ups J ++ prios J ++ (ups F ++ prios F ++ rF) ++ rJ ++ others J ++ logs ++ acts.
Proof.
  clear HP. destruct HF as [_ HF']. pose proof HC as H. unfold jail_convert in H.
  assert (H' : match (match j_filter j with Some f => filter_convert E name f | None => Some [] end) with
      | None => CRaise
      | Some stream =>
          match fill_stream E name J stream 0 with
          | None => CRaise
          | Some stream =>
              match jail_loop E name J allow J stream [] with
              | LRaise => CRaise
              | LSkip => COk [CError (tx "Jail '" ++ name ++ tx "' skipped, because of missing log files.")] true
              | LOk stream stream2 =>
                  match actions_convert E name (j_actions j) with
                  | None => CRaise
                  | Some acts => COk (CAdd name (backend_of J) :: stream ++ stream2 ++ acts) false
                  end
              end
          end
      end = COk s false).
  { destruct (vget (tx "config-error") J) as [| | |[|c t]]; try exact H. discriminate. }
  clear H. assert (FC : exists rF, rests F = Some rF /\ (match j_filter j with Some f => filter_convert E name f | None => Some [] end) = Some (ups F ++ prios F ++ rF)).
  { destruct (j_filter j) as [f|].
    - unfold filter_convert in *. rewrite HF' in H' |- *. rewrite fill_eq in H' |- *. destruct (rests F) as [rF|]; [|discriminate]. exists rF. auto.
    - subst F. exists []. auto. }
  destruct FC as (rF & RF & FC). rewrite FC in H'. rewrite fill_eq in H'. destruct (rests J) as [rJ|] eqn:RJ; [|discriminate].
  destruct (jail_loop E name J allow J _ []) as [a b| |] eqn:L; try discriminate. apply loop_ok in L as [-> ->].
  destruct (actions_convert E name (j_actions j)) as [acts|] eqn:A; [|discriminate]. injection H' as <-. exists rF, rJ, acts.
  split; [exact RF|]. split; [reflexivity|]. split; [reflexivity|]. cbn [app]. now rewrite <- !app_assoc.
Qed.

Lemma jkey k : In k (dkeys J) -> In k (names config_opts).
Proof. apply (proj2 HP). Qed.
(** No block but the right one has a word. *)
Lemma ups_without k o : k <> tx "usedns" -> without k (ups o).
Proof. intros N. apply (forall_without k _ _ (ups_key name o)). intros c ->. congruence. Qed.
Lemma prios_without k o : k <> tx "maxlines" -> k <> tx "prefregex" -> without k (prios o).
Proof. intros N1 N2. apply (forall_without k _ _ (prios_key name o)). intros c [-> | ->]; congruence. Qed.
Lemma rests_without k o r : rests o = Some r -> k <> tx "addfailregex" -> k <> tx "addignoreregex" -> k <> tx "addjournalmatch" -> substring k (tx "datepattern") = false -> without k r.
Proof.
  intros R N1 N2 N3 Sb. apply (forall_without k _ _ (rests_key E name o r R)). intros c [-> |[-> |[-> |(k' & v & -> & _ & Hs)]]]; try congruence. cbn. congruence.
Qed.
Lemma others_without k : k <> tx "addignoreip" -> (In k (names config_opts) -> k = tx "logpath" \/ k = tx "ignoreip" \/ In k ignore_opts) -> without k (others J).
Proof.
  intros N1 N2. apply (forall_without k _ _ (others_key name J)). intros c [-> |(k' & v & -> & I & N3 & N4 & N5)]; [congruence|]. cbn. intros [= ->].
  destruct (N2 (jkey _ I)) as [-> |[-> |]]; tauto.
Qed.
Lemma logs_without' k : k <> tx "addlogpath" -> without k logs.
Proof. intros N. apply (forall_without k _ _ (plogs_key E name J J)). intros c ->. congruence. Qed.
Lemma acts_without k l acts : actions_convert E name l = Some acts -> k <> tx "addaction" -> k <> tx "action" -> without k acts.
Proof. intros A N1 N2. apply (forall_without k _ _ (act_keys E name l acts A)). intros c [-> | ->]; congruence. Qed.
Lemma add_without k b : without k [CAdd name b].
Proof. constructor; [discriminate|constructor]. Qed.

Ltac absent := solve [discriminate | reflexivity | intros I; exfalso; vm_compute in I; repeat (destruct I as [I|I]; [discriminate I|]); exact I].

(** *** settings *)
Definition first_key (k : text) : bool := eqb k (tx "usedns") || inb k [tx "maxlines"; tx "prefregex"].
Lemma firsts_values k o : dwf o -> last_of (told_values k (ups o ++ prios o)) = if first_key k then set_value (dget k o) else None.
Proof.
  intros W. unfold told_values. rewrite flat_app. change (last_of (told_values k (ups o) ++ told_values k (prios o)) = if first_key k then set_value (dget k o) else None).
  rewrite ups_values, prios_values by exact W. unfold first_key. destruct (eqb_spec k (tx "usedns")) as [->|N].
  - change (inb (tx "usedns") [tx "maxlines"; tx "prefregex"]) with false. cbn [orb]. rewrite app_nil_r. apply last_opt.
  - cbn [orb app]. destruct (inb k _); [apply last_opt|reflexivity].
Qed.
Lemma told_all k : no_add k -> k <> tx "action" -> told k s =
  orelse (if eqb k (tx "logpath") || eqb k (tx "ignoreip") || inb k ignore_opts then None else dget k J)
  (orelse (if substring k (tx "datepattern") then orelse (set_value (dget k J)) (set_value (dget k F)) else None)
          (if first_key k then orelse (set_value (dget k F)) (set_value (dget k J)) else None)).
Proof.
  intros A NA. destruct structure as (rF & rJ & acts & RF & RJ & AC & ->). unfold told.
  assert (L1 : told_values k logs = []) by (apply values_without, logs_without'; intros ->; discriminate).
  assert (L2 : told_values k acts = []) by (apply values_without, (acts_without k _ _ AC); [intros ->; discriminate|exact NA]).
  change (CAdd name (backend_of J) :: ups J ++ prios J ++ (ups F ++ prios F ++ rF) ++ rJ ++ others J ++ logs ++ acts)
    with ([CAdd name (backend_of J)] ++ ups J ++ prios J ++ (ups F ++ prios F ++ rF) ++ rJ ++ others J ++ logs ++ acts).
  assert (Eq : [CAdd name (backend_of J)] ++ ups J ++ prios J ++ (ups F ++ prios F ++ rF) ++ rJ ++ others J ++ logs ++ acts
    = [CAdd name (backend_of J)] ++ (ups J ++ prios J) ++ (ups F ++ prios F) ++ rF ++ rJ ++ others J ++ logs ++ acts) by now rewrite <- !app_assoc.
  rewrite Eq. assert (FA : forall x y, told_values k (x ++ y) = told_values k x ++ told_values k y) by (intros; apply flat_app).
  rewrite (FA [CAdd name _]), (FA (ups J ++ prios J)), (FA (ups F ++ prios F)), (FA rF), (FA rJ), (FA (others J)), (FA logs). rewrite L1, L2.
  change (told_values k [CAdd name (backend_of J)]) with (@nil val). rewrite !app_nil_r. cbn [app]. rewrite !last_of_app.
  destruct HF as [WF _]. destruct HP as [WJ _]. rewrite (firsts_values k J WJ), (firsts_values k F WF).
  rewrite (rests_values E name k F rF WF A RF), (rests_values E name k J rJ WJ A RJ), (others_values name k J WJ A).
  destruct (eqb k (tx "logpath") || eqb k (tx "ignoreip") || inb k ignore_opts); cbn [last_of rev]; rewrite ?last_opt.
  - destruct (substring k (tx "datepattern")), (first_key k); rewrite ?last_opt; cbn; destruct (set_value (dget k J)), (set_value (dget k F)); reflexivity.
  - destruct (dget k J) as [v|]; [reflexivity|]. cbn [orelse set_value]. destruct (substring k (tx "datepattern")), (first_key k); rewrite ?last_opt; cbn; destruct (set_value (dget k F)); reflexivity.
Qed.

(** *** lists *)
Lemma regexes k : k = tx "failregex" \/ k = tx "ignoreregex" -> told_added (tx "add" ++ k) s = lines_of (dget k F) ++ lines_of (dget k J).
Proof.
  intros K. destruct structure as (rF & rJ & acts & RF & RJ & AC & ->). destruct HF as [WF _]. destruct HP as [WJ _].
  assert (FA : forall x y, told_added (tx "add" ++ k) (x ++ y) = told_added (tx "add" ++ k) x ++ told_added (tx "add" ++ k) y) by (intros; apply flat_app).
  assert (Z : forall x, without (tx "add" ++ k) x -> told_added (tx "add" ++ k) x = []) by (intros; now apply added_without).
  change (CAdd name (backend_of J) :: ups J ++ prios J ++ (ups F ++ prios F ++ rF) ++ rJ ++ others J ++ logs ++ acts)
    with ([CAdd name (backend_of J)] ++ ups J ++ prios J ++ (ups F ++ prios F ++ rF) ++ rJ ++ others J ++ logs ++ acts).
  rewrite !FA. rewrite (rests_added E name k F rF K WF RF), (rests_added E name k J rJ K WJ RJ).
  rewrite (Z [CAdd name _]), (Z (ups J)), (Z (ups F)), (Z (prios J)), (Z (prios F)), (Z (others J)), (Z logs), (Z acts).
  - cbn [app]. now rewrite ?app_nil_r.
  - apply (acts_without _ _ _ AC); destruct K as [-> | ->]; discriminate.
  - apply logs_without'. destruct K as [-> | ->]; discriminate.
  - apply others_without; destruct K as [-> | ->]; absent.
  - apply prios_without; destruct K as [-> | ->]; discriminate.
  - apply prios_without; destruct K as [-> | ->]; discriminate.
  - apply ups_without; destruct K as [-> | ->]; discriminate.
  - apply ups_without; destruct K as [-> | ->]; discriminate.
  - apply add_without.
Qed.
Lemma journals : Forall2 (fun m ws => exists xs, e_shlex E m = Some xs /\ ws = map VText xs)
  (lines_of (dget (tx "journalmatch") F) ++ lines_of (dget (tx "journalmatch") J)) (told_words (tx "addjournalmatch") s).
Proof.
  destruct structure as (rF & rJ & acts & RF & RJ & AC & ->). destruct HF as [WF _]. destruct HP as [WJ _].
  assert (FA : forall x y, told_words (tx "addjournalmatch") (x ++ y) = told_words (tx "addjournalmatch") x ++ told_words (tx "addjournalmatch") y) by (intros; apply flat_app).
  assert (Z : forall x, without (tx "addjournalmatch") x -> told_words (tx "addjournalmatch") x = []) by (intros; now apply words_without).
  change (CAdd name (backend_of J) :: ups J ++ prios J ++ (ups F ++ prios F ++ rF) ++ rJ ++ others J ++ logs ++ acts)
    with ([CAdd name (backend_of J)] ++ ups J ++ prios J ++ (ups F ++ prios F ++ rF) ++ rJ ++ others J ++ logs ++ acts).
  rewrite !FA.
  rewrite (Z [CAdd name _]), (Z (ups J)), (Z (ups F)), (Z (prios J)), (Z (prios F)), (Z (others J)), (Z logs), (Z acts).
  - cbn [app]. rewrite ?app_nil_r. apply Forall2_app; now apply (rests_journal E name).
  - apply (acts_without _ _ _ AC); discriminate.
  - apply logs_without'. discriminate.
  - apply others_without; absent.
  - apply prios_without; discriminate.
  - apply prios_without; discriminate.
  - apply ups_without; discriminate.
  - apply ups_without; discriminate.
  - apply add_without.
Qed.
Lemma ips : told_words (tx "addignoreip") s = match dget (tx "ignoreip") J with Some v => [map VText (splitwords (text_of v) false)] | None => [] end.
Proof.
  destruct structure as (rF & rJ & acts & RF & RJ & AC & ->). destruct HF as [WF _]. destruct HP as [WJ _].
  assert (FA : forall x y, told_words (tx "addignoreip") (x ++ y) = told_words (tx "addignoreip") x ++ told_words (tx "addignoreip") y) by (intros; apply flat_app).
  assert (Z : forall x, without (tx "addignoreip") x -> told_words (tx "addignoreip") x = []) by (intros; now apply words_without).
  change (CAdd name (backend_of J) :: ups J ++ prios J ++ (ups F ++ prios F ++ rF) ++ rJ ++ others J ++ logs ++ acts)
    with ([CAdd name (backend_of J)] ++ ups J ++ prios J ++ (ups F ++ prios F ++ rF) ++ rJ ++ others J ++ logs ++ acts).
  rewrite !FA.
  rewrite (Z [CAdd name _]), (Z (ups J)), (Z (ups F)), (Z (prios J)), (Z (prios F)), (Z rF), (Z rJ), (Z logs), (Z acts).
  - cbn [app]. rewrite ?app_nil_r. unfold told_words, Stream_Proofs.others. rewrite flat_flat_map. rewrite (dict_single (tx "ignoreip")); [|exact WJ|].
    + destruct (dget (tx "ignoreip") J) as [v|]; reflexivity.
    + intros k v I N. destruct (eqb k (tx "logpath")); [reflexivity|]. destruct (eqb_spec k (tx "ignoreip")); [contradiction|]. destruct (inb k ignore_opts) eqn:B; [reflexivity|].
      unfold flat. cbn [map concat set_cmd]. destruct (eqb_spec k (tx "addignoreip")) as [->|]; [|reflexivity]. exfalso. apply (in_map fst) in I. apply jkey in I. revert I. absent.
  - apply (acts_without _ _ _ AC); discriminate.
  - apply logs_without'. discriminate.
  - apply (rests_without _ _ _ RJ); absent.
  - apply (rests_without _ _ _ RF); absent.
  - apply prios_without; discriminate.
  - apply prios_without; discriminate.
  - apply ups_without; discriminate.
  - apply ups_without; discriminate.
  - apply add_without.
Qed.

(** *** log files *)
Lemma rsplit_some l a b : rsplit l = Some (a, b) -> last_blank l a b.
Proof.
  revert a b. assert (K : forall l, rsplit l = None -> ~ In " "%char l).
  { clear. induction l as [|c l IH]; intros H; [intros []|]. cbn in H. destruct (rsplit l) as [[? ?]|]; [discriminate|]. destruct (eqb_spec c " "%char) as [|N]; [discriminate|].
    intros [->|I]; [congruence|]. now apply IH. }
  induction l as [|c l IH]; intros a b H; [discriminate|]. cbn in H. destruct (rsplit l) as [[a' b']|] eqn:R.
  - injection H as <- <-. destruct (IH a' b' eq_refl) as [x y N]. exact (last_blank_intro (c :: x) y N).
  - destruct (eqb_spec c " "%char) as [->|]; [|discriminate]. injection H as <- <-. exact (last_blank_intro [] l (K l R)).
Qed.
Lemma rsplit_none l : rsplit l = None -> ~ In " "%char l.
Proof.
  induction l as [|c l IH]; intros H; [intros []|]. cbn in H. destruct (rsplit l) as [[? ?]|]; [discriminate|]. destruct (eqb_spec c " "%char) as [|N]; [discriminate|].
  intros [->|I]; [congruence|]. now apply IH.
Qed.
Lemma path_files ls : log_files E ls (told_logs (flat_map (path_cmds E name) ls)).
Proof.
  induction ls as [|l ls IH]; [constructor|]. cbn [flat_map]. unfold told_logs. rewrite flat_app. fold told_logs.
  assert (P : exists p t, path_line l p t /\ told_logs (path_cmds E name l) = map (fun f => (f, t)) (filter (e_exists E) (e_glob E p))).
  { unfold path_cmds. assert (M : forall t fs, told_logs (map (fun p => CSet name [VText (tx "addlogpath"); VText p; VText t]) fs) = map (fun f => (f, t)) fs).
    { intros t fs. induction fs as [|f fs IHf]; [reflexivity|]. unfold told_logs, flat in *. cbn [map concat]. rewrite eqb_refl. cbn [app]. now f_equal. }
    destruct (rsplit l) as [[a b]|] eqn:R.
    - exists a, b. split; [now apply PL_tail, rsplit_some|]. apply M.
    - exists l, (tx "head"). split; [now apply PL_plain, rsplit_none|]. apply M. }
  destruct P as (p & t & PL & T). change (flat _ (path_cmds E name l)) with (told_logs (path_cmds E name l)). rewrite T. now constructor.
Qed.
Lemma systemd_uses : systemd J = uses_journal J.
Proof. unfold systemd, uses_journal, backend_of. destruct (dget (tx "backend") J) as [[| | |b]|]; reflexivity. Qed.
Lemma log_paths : match dget (tx "logpath") J with
                  | Some v => if uses_journal J then told_logs s = [] else log_files E (split nl (text_of v)) (told_logs s)
                  | None => told_logs s = []
                  end.
Proof.
  destruct structure as (rF & rJ & acts & RF & RJ & AC & ->). destruct HF as [WF _]. destruct HP as [WJ _].
  assert (FA : forall x y, told_logs (x ++ y) = told_logs x ++ told_logs y) by (intros; apply flat_app).
  assert (Z : forall x, without (tx "addlogpath") x -> told_logs x = []) by (intros; now apply logs_without).
  change (CAdd name (backend_of J) :: ups J ++ prios J ++ (ups F ++ prios F ++ rF) ++ rJ ++ others J ++ logs ++ acts)
    with ([CAdd name (backend_of J)] ++ ups J ++ prios J ++ (ups F ++ prios F ++ rF) ++ rJ ++ others J ++ logs ++ acts).
  rewrite !FA.
  rewrite (Z [CAdd name _]), (Z (ups J)), (Z (ups F)), (Z (prios J)), (Z (prios F)), (Z rF), (Z rJ), (Z (others J)), (Z acts).
  - cbn [app]. rewrite ?app_nil_r. assert (L : logs = match dget (tx "logpath") J with Some v => if systemd J then [] else flat_map (path_cmds E name) (split newline (text_of v)) | None => [] end).
    { unfold plogs. rewrite (dict_single (tx "logpath")); [|exact WJ|intros k v _ N; destruct (eqb_spec k (tx "logpath")); [contradiction|reflexivity]]. destruct (dget (tx "logpath") J); [|reflexivity]. now destruct (systemd J). }
    rewrite L, systemd_uses. destruct (dget (tx "logpath") J) as [v|]; [|reflexivity]. destruct (uses_journal J); [reflexivity|]. apply path_files.
  - apply (acts_without _ _ _ AC); discriminate.
  - apply others_without; absent.
  - apply (rests_without _ _ _ RJ); absent.
  - apply (rests_without _ _ _ RF); absent.
  - apply prios_without; discriminate.
  - apply prios_without; discriminate.
  - apply ups_without; discriminate.
  - apply ups_without; discriminate.
  - apply add_without.
Qed.
End WithEnv.
