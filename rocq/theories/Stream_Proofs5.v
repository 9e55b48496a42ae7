(** Proofs about the commands of one jail (what they are about, which words they use) and of all jails. *)
From Verif Require Import Base Text Backtrack Options_Model Options_Spec Options_Proofs Options_Proofs2 Stream_Model Stream_Spec Stream_Proofs Stream_Proofs2 Stream_Proofs3 Stream_Proofs4.
Require Import ZifyBool ZifyNat.
Local Open Scope string_scope.
Local Open Scope list_scope.

Definition own (c : cmd) : option text := match c with CStart _ => None | _ => about c end.
Section About.
Context (E : env) (name : text).
Notation mine := (Forall (fun c => own c = Some name)).
Lemma ups_about o : mine (ups name o).
Proof. induction o as [|[k v] o IH]; [constructor|]. cbn [ups]. apply Forall_app. split; [exact IH|]. destruct (_ && _); repeat constructor. Qed.
Lemma prios_about o : mine (prios name o).
Proof. apply Forall_forall. intros c I. apply in_flat_map in I as ([k v] & _ & I). destruct (_ && _); [destruct I as [<-|[]]; reflexivity|contradiction]. Qed.
Lemma journal_about l r : journal_cmds E name l = Some r -> mine r.
Proof.
  revert r. induction l as [|m l IH]; intros r H; cbn [journal_cmds] in H; [injection H as <-; constructor|]. destruct (nonempty m); [|auto].
  destruct (e_shlex E m); [|discriminate]. destruct (journal_cmds E name l); [|discriminate]. injection H as <-. constructor; [reflexivity|auto].
Qed.
Lemma rest1_about kv l : rest1 E name kv = Some l -> mine l.
Proof.
  destruct kv as [k v]. unfold rest1. intros H.
  assert (Q : forall l', match v with VText t => journal_cmds E name (split newline t) | _ => None end = Some l' -> mine l') by (intros l' Q; destruct v; try discriminate; now apply journal_about in Q).
  destruct v; [injection H as <-; constructor| | |];
  (destruct (inb k [tx "failregex"; tx "ignoreregex"]);
   [first [discriminate | injection H as <-; destruct (filter _ _) as [|r [|r2 m]]; repeat constructor]
   |destruct (inb k _); [injection H as <-; constructor|]; destruct (substring k _); [injection H as <-; repeat constructor|]; destruct (eqb k _); [now apply Q|injection H as <-; constructor]]).
Qed.
Lemma rests_about o r : rests E name o = Some r -> mine r.
Proof.
  revert r. induction o as [|kv o IH]; intros r H; cbn [rests] in H; [injection H as <-; constructor|]. destruct (rest1 E name kv) as [a|] eqn:R; [|discriminate].
  destruct (rests E name o); [|discriminate]. injection H as <-. apply Forall_app. split; [now apply rest1_about in R|auto].
Qed.
Lemma others_about o : mine (others name o).
Proof. apply Forall_forall. intros c I. apply in_flat_map in I as ([k v] & _ & I). destruct (eqb k _); [contradiction|]. destruct (eqb k _); [destruct I as [<-|[]]; reflexivity|]. destruct (inb k _); [contradiction|destruct I as [<-|[]]; reflexivity]. Qed.
Lemma path_about l : mine (path_cmds E name l).
Proof. unfold path_cmds. destruct (match rsplit l with Some x => x | None => _ end) as [p t]. apply Forall_map, Forall_forall. reflexivity. Qed.
Lemma plogs_about J o : mine (plogs E name J o).
Proof.
  apply Forall_forall. intros c I. apply in_flat_map in I as ([k v] & _ & I). destruct (eqb k _); [|contradiction]. destruct (systemd J); [contradiction|].
  apply in_flat_map in I as (l & _ & I). revert c I. apply Forall_forall, path_about.
Qed.
Lemma acts_about l s : actions_convert E name l = Some s -> mine s.
Proof.
  revert s. induction l as [|a l IH]; intros s H; cbn [actions_convert] in H; [injection H as <-; constructor|].
  destruct (match a with APython n p js => _ | ACommand a => _ end) as [x|] eqn:X; [|discriminate]. destruct (actions_convert E name l); [|discriminate]. injection H as <-.
  apply Forall_app. split; [|auto]. destruct a as [n p js|a]; [injection X as <-; repeat constructor|]. unfold action_convert in X. destruct (get_combined _ _ _ _ _) as [o|]; [|discriminate].
  injection X as <-. destruct (action_multi o (a_init a)) as [|[k v] [|kv m]]; repeat constructor.
Qed.
End About.

(** ** One jail *)
Lemma convert_parts E allow j s : jail_convert E allow j = COk s false ->
  exists r1 r2 rJ acts, s = CAdd (j_name j) (backend_of (j_opts j)) :: ups (j_name j) (j_opts j) ++ prios (j_name j) (j_opts j) ++ (r1 ++ r2) ++ rJ ++ others (j_name j) (j_opts j) ++ plogs E (j_name j) (j_opts j) (j_opts j) ++ acts
   /\ Forall (fun c => own c = Some (j_name j)) (r1 ++ r2 ++ rJ ++ acts).
Proof.
  intros H. set (F := match j_filter j with Some f => match get_combined E filter_opts [] (f_opts f) (f_init f) with Some F => F | None => [] end | None => [] end).
  unfold jail_convert in H.
  assert (H' : match (match j_filter j with Some f => filter_convert E (j_name j) f | None => Some [] end) with
      | None => CRaise
      | Some stream =>
          match fill_stream E (j_name j) (j_opts j) stream 0 with
          | None => CRaise
          | Some stream =>
              match jail_loop E (j_name j) (j_opts j) allow (j_opts j) stream [] with
              | LRaise => CRaise
              | LSkip => COk [CError (tx "Jail '" ++ (j_name j) ++ tx "' skipped, because of missing log files.")] true
              | LOk stream stream2 =>
                  match actions_convert E (j_name j) (j_actions j) with
                  | None => CRaise
                  | Some acts => COk (CAdd (j_name j) (backend_of (j_opts j)) :: stream ++ stream2 ++ acts) false
                  end
              end
          end
      end = COk s false).
  { destruct (vget (tx "config-error") (j_opts j)) as [| | |[|c t]]; try exact H. discriminate. }
  clear H. assert (FC : exists rF, rests E (j_name j) F = Some rF /\ (match j_filter j with Some f => filter_convert E (j_name j) f | None => Some [] end) = Some (ups (j_name j) F ++ prios (j_name j) F ++ rF)).
  { subst F. destruct (j_filter j) as [f|].
    - unfold filter_convert in *. destruct (get_combined E filter_opts [] (f_opts f) (f_init f)) as [F|]; [|discriminate]. rewrite fill_eq in H' |- *. destruct (rests E (j_name j) F) as [rF|]; [|discriminate]. exists rF. auto.
    - exists []. auto. }
  destruct FC as (rF & RF & FC). rewrite FC in H'. rewrite fill_eq in H'. destruct (rests E (j_name j) (j_opts j)) as [rJ|] eqn:RJ; [|discriminate].
  destruct (jail_loop E (j_name j) (j_opts j) allow (j_opts j) _ []) as [a b| |] eqn:L; try discriminate. apply loop_ok in L as [-> ->].
  destruct (actions_convert E (j_name j) (j_actions j)) as [acts|] eqn:A; [|discriminate]. injection H' as <-. exists (ups (j_name j) F ++ prios (j_name j) F), rF, rJ, acts.
  split; [cbn [app]; now rewrite <- !app_assoc|]. rewrite !Forall_app. repeat split; [apply ups_about|apply prios_about|now apply rests_about in RF|now apply rests_about in RJ|now apply acts_about in A].
Qed.
Lemma convert_own E allow j s : jail_convert E allow j = COk s false -> Forall (fun c => own c = Some (j_name j)) s.
Proof.
  intros H. apply convert_parts in H as (r1 & r2 & rJ & acts & -> & M). rewrite !Forall_app in M. constructor; [reflexivity|]. rewrite !Forall_app.
  pose proof (ups_about (j_name j) (j_opts j)). pose proof (prios_about (j_name j) (j_opts j)). pose proof (others_about (j_name j) (j_opts j)).
  pose proof (plogs_about E (j_name j) (j_opts j) (j_opts j)). tauto.
Qed.
Lemma convert_about E allow j s : jail_convert E allow j = COk s false -> Forall (fun c => about c = Some (j_name j)) s.
Proof. intros H. apply convert_own in H. eapply Forall_impl; [|exact H]. cbn beta. intros [] Hc; try exact Hc. discriminate. Qed.
Lemma convert_error E allow j s : jail_convert E allow j = COk s true -> exists e, s = [CError e].
Proof.
  unfold jail_convert. intros H.
  assert (Q : forall x, match x with
      | None => CRaise
      | Some stream =>
          match fill_stream E (j_name j) (j_opts j) stream 0 with
          | None => CRaise
          | Some stream =>
              match jail_loop E (j_name j) (j_opts j) allow (j_opts j) stream [] with
              | LRaise => CRaise
              | LSkip => COk [CError (tx "Jail '" ++ (j_name j) ++ tx "' skipped, because of missing log files.")] true
              | LOk stream stream2 =>
                  match actions_convert E (j_name j) (j_actions j) with
                  | None => CRaise
                  | Some acts => COk (CAdd (j_name j) (backend_of (j_opts j)) :: stream ++ stream2 ++ acts) false
                  end
              end
          end
      end = COk s true -> exists e, s = [CError e]).
  { intros [x|]; [|discriminate]. destruct (fill_stream _ _ _ _ _) as [y|]; [|discriminate]. destruct (jail_loop _ _ _ _ _ _ _) as [a b| |]; try discriminate.
    - destruct (actions_convert _ _ _); discriminate.
    - intros [= <-]. eexists. reflexivity. }
  destruct (vget (tx "config-error") (j_opts j)) as [| | |[|c t]]; try (now apply Q in H). injection H as <-. eexists. reflexivity.
Qed.

Lemma substring_spec a b : substring a b = true <-> exists x y, b = x ++ a ++ y.
Proof.
  assert (SP : forall p s, starts_with p s = true <-> exists r, s = p ++ r).
  { intros p s. unfold starts_with. split.
    - intros H. apply eqb_true in H. exists (skipn (length p) s). rewrite <- H at 1. symmetry. apply firstn_skipn.
    - intros [r ->]. rewrite firstn_app, Nat.sub_diag, firstn_O, app_nil_r, firstn_all. apply eqb_refl. }
  induction b as [|c b IH]; cbn [substring]; rewrite orb_true_iff, SP.
  - split; [intros [[r H]|[=]]; exists [], r; exact H|]. intros (x & y & H). destruct x; [|discriminate]. left. now exists y.
  - rewrite IH. split.
    + intros [[r H]|(x & y & ->)]; [exists [], r; exact H|exists (c :: x), y; reflexivity].
    + intros (x & y & H). destruct x as [|d x]; [left; now exists y|]. cbn in H. injection H as <- ->. right. eauto.
Qed.
Section Words.
Context (E : env) (allow : bool) (j : jail) (F : opts) (s : list cmd).
Context (HC : jail_convert E allow j = COk s false) (HF : filter_values E j F) (HP : proper j).
Lemma words_used : exists s', s = CAdd (j_name j) (backend_of (j_opts j)) :: s' /\ forall c, In c s' ->
  exists k, key_of c = Some k /\ (In k commands \/ In k (dkeys F) /\ substring k (tx "datepattern") = true).
Proof.
  destruct (structure E allow j F s HC HF) as (rF & rJ & acts & RF & RJ & AC & ->).
  eexists. split; [reflexivity|]. intros c I.
  assert (C : forall k, inb k commands = true -> key_of c = Some k -> exists k, key_of c = Some k /\ (In k commands \/ In k (dkeys F) /\ substring k (tx "datepattern") = true)).
  { intros k B Hk. exists k. split; [exact Hk|]. left. now apply inb_In. }
  repeat rewrite in_app_iff in I.
  assert (U : forall o, In c (ups (j_name j) o) -> key_of c = Some (tx "usedns")) by (intros o; revert c I C; clear; intros c _ _; revert c; apply Forall_forall, ups_key).
  assert (P : forall o, In c (prios (j_name j) o) -> key_of c = Some (tx "maxlines") \/ key_of c = Some (tx "prefregex")) by (intros o; revert c I C U; clear; intros c _ _ _; revert c; apply Forall_forall, prios_key).
  assert (R : forall o r, rests E (j_name j) o = Some r -> In c r -> key_of c = Some (tx "addfailregex") \/ key_of c = Some (tx "addignoreregex") \/ key_of c = Some (tx "addjournalmatch")
     \/ exists k v, c = set_cmd (j_name j) k v /\ In k (dkeys o) /\ substring k (tx "datepattern") = true).
  { intros o r Ro Ir. pose proof (rests_key E (j_name j) o r Ro) as K. rewrite Forall_forall in K. exact (K c Ir). }
  assert (Co : forall k, In k (names config_opts) -> ~ In k ignore_opts -> k <> tx "logpath" -> k <> tx "ignoreip" -> inb k commands = true).
  { intros k Ik N1 N2 N3. revert N1 N2 N3. vm_compute in Ik.
    repeat (destruct Ik as [<-|Ik]; [intros N1 N2 N3; first [reflexivity | now contradict N2 | now contradict N3 | (exfalso; apply N1, inb_In; reflexivity)]|]). contradiction. }
  assert (Cd : forall k, In k (names config_opts) -> substring k (tx "datepattern") = true -> inb k commands = true).
  { intros k Ik. vm_compute in Ik. repeat (destruct Ik as [<-|Ik]; [intros Sb; first [reflexivity | discriminate Sb]|]). contradiction. }
  destruct I as [I|[I|[[I|[I|I]]|[I|[I|[I|I]]]]]].
  - apply (C (tx "usedns")); [reflexivity|now apply (U (j_opts j))].
  - destruct (P _ I) as [K|K]; refine (C _ _ K); reflexivity.
  - apply (C (tx "usedns")); [reflexivity|now apply (U F)].
  - destruct (P _ I) as [K|K]; refine (C _ _ K); reflexivity.
  - destruct (R F rF RF I) as [K|[K|[K|(k & v & -> & Ik & Sb)]]]; try (refine (C _ _ K); reflexivity). exists k. auto.
  - destruct (R _ rJ RJ I) as [K|[K|[K|(k & v & -> & Ik & Sb)]]]; try (refine (C _ _ K); reflexivity). apply (C k); [|reflexivity]. apply Cd; [now apply HP|exact Sb].
  - pose proof (others_key (j_name j) (j_opts j)) as K. rewrite Forall_forall in K. destruct (K c I) as [K'|(k & v & -> & Ik & N1 & N2 & N3)]; [refine (C _ _ K'); reflexivity|].
    apply (C k); [|reflexivity]. apply Co; auto. now apply HP.
  - pose proof (plogs_key E (j_name j) (j_opts j) (j_opts j)) as K. rewrite Forall_forall in K. refine (C _ _ (K c I)). reflexivity.
  - pose proof (act_keys E (j_name j) _ _ AC) as K. rewrite Forall_forall in K. destruct (K c I) as [K'|K']; refine (C _ _ K'); reflexivity.
Qed.
End Words.

Lemma no_start E allow j s : jail_convert E allow j = COk s false -> forall n, ~ In (CStart n) s.
Proof. intros H n I. apply convert_own in H. rewrite Forall_forall in H. apply H in I. discriminate. Qed.
(** ** All jails *)
Definition stream_of E allow j : list cmd := match jail_convert E allow j with COk s _ => s | CRaise => [] end.
Definition fine E allow j : bool := match jail_convert E allow j with COk _ e => negb e | CRaise => false end.
Lemma jails_eq E allow l : jails_convert E allow l =
  if forallb (fun j => match jail_convert E allow j with CRaise => false | _ => true end) l
  then Some (flat_map (stream_of E allow) l ++ map (fun j => CStart (j_name j)) (filter (fine E allow) l)) else None.
Proof.
  unfold jails_convert. assert (H : convert_jails E allow l =
    if forallb (fun j => match jail_convert E allow j with CRaise => false | _ => true end) l
    then Some (flat_map (stream_of E allow) l, map (fun j => CStart (j_name j)) (filter (fine E allow) l)) else None).
  { induction l as [|j l IH]; [reflexivity|]. cbn [convert_jails forallb flat_map filter]. unfold fine, stream_of in *. destruct (jail_convert E allow j) as [|s e]; [reflexivity|].
    cbn [andb]. rewrite IH. destruct (forallb _ l); [|reflexivity]. destruct e; reflexivity. }
  rewrite H. destruct (forallb _ l); reflexivity.
Qed.
Definition section_jails E force sec : list jail :=
  if eqb sec (tx "INCLUDES") then [] else match jail_get_options E force sec with JOk j => if is_enabled force (j_opts j) then [j] else [] | JBad j => [j] | JRaise => [] end.
Definition good_section E force sec : bool :=
  negb (eqb sec (tx "INCLUDES")) && match jail_get_options E force sec with JOk j => is_enabled force (j_opts j) | _ => false end.
Definition wrong_section E force sec : bool :=
  negb (eqb sec (tx "INCLUDES")) && match jail_get_options E force sec with JBad _ => true | _ => false end.
Definition raising_section E force sec : bool :=
  negb (eqb sec (tx "INCLUDES")) && match jail_get_options E force sec with JRaise => true | _ => false end.
Lemma read_eq E force l : forall st, read_jails E force l st =
  if existsb (raising_section E force) l then None
  else Some (flat_map (section_jails E force) l, (fst st || existsb (good_section E force) l, snd st || existsb (wrong_section E force) l)).
Proof.
  induction l as [|sec l IH]; intros st; cbn [read_jails existsb flat_map]; [rewrite !orb_false_r; destruct st; reflexivity|].
  unfold section_jails, good_section, wrong_section, raising_section in *. destruct (eqb sec (tx "INCLUDES")); cbn [negb andb orb app]; [apply IH|].
  destruct (jail_get_options E force sec) as [j|j|]; [|rewrite IH; destruct (existsb _ l); [reflexivity|]; cbn [fst snd app orb]; rewrite ?orb_true_r; reflexivity|reflexivity].
  destruct (is_enabled force (j_opts j)); rewrite IH; destruct (existsb _ l); try reflexivity; cbn [fst snd app orb]; rewrite ?orb_true_r; reflexivity.
Qed.
