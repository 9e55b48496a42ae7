(** Proofs about the commands of one jail: their order, the actions. *)
From Verif Require Import Base Text Backtrack Options_Model Options_Spec Options_Proofs Options_Proofs2 Stream_Model Stream_Spec Stream_Proofs Stream_Proofs2 Stream_Proofs3.
Require Import ZifyBool ZifyNat.
Local Open Scope string_scope.
Local Open Scope list_scope.

Lemma split_after {A} (P : A -> Prop) pre post a c b : pre ++ post = a ++ c :: b -> Forall (fun x => ~ P x) pre -> P c ->
  exists a', a = pre ++ a' /\ post = a' ++ c :: b.
Proof.
  intros Eq N Hc. revert a Eq. induction N as [|x pre Hx _ IH]; intros a Eq; [exists a; auto|].
  destruct a as [|y a]; cbn in Eq; [injection Eq as -> _; contradiction|]. injection Eq as -> Eq. destruct (IH a Eq) as (a' & -> & ->). exists a'. auto.
Qed.
Lemma without_sub k a b : without k (a ++ b) -> without k a.
Proof. intros W. now apply without_app in W. Qed.
Lemma words_app k a b : told_words k (a ++ b) = told_words k a ++ told_words k b.
Proof. apply flat_app. Qed.
Lemma action_options_app n a b : told_action_options n (a ++ b) = told_action_options n a ++ told_action_options n b.
Proof. apply flat_app. Qed.
Lemma told_cut k a b : without k b -> told k (a ++ b) = told k a.
Proof. intros W. apply values_without in W. unfold told, told_values in *. now rewrite flat_app, W, app_nil_r. Qed.
Lemma added_cut k a b : without k b -> told_added k (a ++ b) = told_added k a.
Proof. intros W. apply added_without in W. unfold told_added in *. now rewrite flat_app, W, app_nil_r. Qed.
Lemma words_cut k a b : without k b -> told_words k (a ++ b) = told_words k a.
Proof. intros W. apply words_without in W. unfold told_words in *. now rewrite flat_app, W, app_nil_r. Qed.

Section WithEnv.
Context (E : env) (allow : bool) (j : jail) (F : opts) (s : list cmd).
Context (HC : jail_convert E allow j = COk s false) (HF : filter_values E j F) (HP : proper j).
Notation name := (j_name j). Notation J := (j_opts j).
Notation ups := (ups name). Notation prios := (prios name). Notation rests := (rests E name). Notation others := (others name).
Notation logs := (plogs E name J J).

Ltac absent := solve [discriminate | reflexivity | intros I; exfalso; vm_compute in I; repeat (destruct I as [I|I]; [discriminate I|]); exact I].

(** ** Order *)
Definition head_part rF rJ := [CAdd name (backend_of J)] ++ ups J ++ prios J ++ (ups F ++ prios F ++ rF) ++ rJ ++ others J.
Lemma structure2 : exists rF rJ acts, rests F = Some rF /\ rests J = Some rJ /\ actions_convert E name (j_actions j) = Some acts
  /\ s = head_part rF rJ ++ logs ++ acts.
Proof.
  destruct (structure E allow j F s HC HF) as (rF & rJ & acts & RF & RJ & AC & ->). exists rF, rJ, acts. unfold head_part. cbn [app]. rewrite <- !app_assoc. auto.
Qed.
Lemma head_without k rF rJ : rests F = Some rF -> rests J = Some rJ -> k = tx "addlogpath" \/ k = tx "addaction" \/ k = tx "action" -> without k (head_part rF rJ).
Proof.
  intros RF RJ K. unfold head_part. repeat rewrite without_app.
  assert (Nk : k <> tx "usedns" /\ k <> tx "maxlines" /\ k <> tx "prefregex" /\ k <> tx "addfailregex" /\ k <> tx "addignoreregex" /\ k <> tx "addjournalmatch" /\ substring k (tx "datepattern") = false)
    by (destruct K as [-> |[-> | ->]]; repeat split; try discriminate).
  destruct Nk as (N1 & N2 & N3 & N4 & N5 & N6 & N7).
  assert (O : without k (others J)).
  { apply others_without; [exact HP|destruct K as [-> |[-> | ->]]; discriminate|]. destruct K as [-> |[-> | ->]]; [absent|absent|]. intros _. right. right. now left. }
  split; [apply add_without|]. split; [now apply ups_without|]. split; [now apply prios_without|]. split.
  - split; [now apply ups_without|]. split; [now apply prios_without|]. now apply (rests_without E j k F rF RF).
  - split; [now apply (rests_without E j k J rJ RJ)|]. exact O.
Qed.
(** What a list function says of the log paths and actions is nothing. *)
Lemma tail_values k acts : actions_convert E name (j_actions j) = Some acts -> k <> tx "addlogpath" -> k <> tx "addaction" -> k <> tx "action" -> without k (logs ++ acts).
Proof. intros AC N1 N2 N3. apply without_app. split; [now apply logs_without'|now apply (acts_without E j k _ _ AC)]. Qed.

Lemma log_position a p t b : s = a ++ CSet name [VText (tx "addlogpath"); p; t] :: b ->
  forall k, k <> tx "addlogpath" -> k <> tx "addaction" -> k <> tx "action" ->
  told k a = told k s /\ told_added k a = told_added k s /\ told_words k a = told_words k s.
Proof.
  intros Es k N1 N2 N3. destruct structure2 as (rF & rJ & acts & RF & RJ & AC & Hs). rewrite Hs in Es.
  pose proof (head_without (tx "addlogpath") rF rJ RF RJ ltac:(now left)) as W.
  destruct (split_after (fun c => key_of c = Some (tx "addlogpath")) _ _ _ _ _ Es W eq_refl) as (a' & -> & Et). rewrite Hs.
  pose proof (tail_values k acts AC N1 N2 N3) as T. assert (T' : without k a') by (rewrite Et in T; now apply without_sub in T).
  rewrite !(told_cut k (head_part rF rJ)), !(added_cut k (head_part rF rJ)), !(words_cut k (head_part rF rJ)) by assumption. auto.
Qed.
Lemma no_actions_before a p t b : s = a ++ CSet name [VText (tx "addlogpath"); p; t] :: b -> told_actions a = [] /\ forall n, told_action_options n a = [].
Proof.
  intros Es. destruct structure2 as (rF & rJ & acts & RF & RJ & AC & Hs). rewrite Hs in Es.
  pose proof (head_without (tx "addlogpath") rF rJ RF RJ ltac:(now left)) as W.
  destruct (split_after (fun c => key_of c = Some (tx "addlogpath")) _ _ _ _ _ Es W eq_refl) as (a' & -> & Et).
  assert (La : exists a2, logs = a' ++ CSet name [VText (tx "addlogpath"); p; t] :: a2).
  { assert (Na : without (tx "addlogpath") acts) by (apply (acts_without E j _ _ _ AC); discriminate). clear - Et Na. revert Et. generalize logs. intros l. revert a'.
    induction l as [|x l IH]; intros a' Et; cbn in Et.
    - exfalso. rewrite Et in Na. apply without_app in Na as [_ Na]. inversion Na as [|? ? H _]. now apply H.
    - destruct a' as [|y a']; cbn in Et; injection Et as -> Et; [exists l; reflexivity|]. destruct (IH a' Et) as (a2 & ->). exists a2. reflexivity. }
  destruct La as (a2 & La). assert (Wl : forall k, k <> tx "addlogpath" -> without k a').
  { intros k N. pose proof (logs_without' E j k N) as Wl. rewrite La in Wl. now apply without_sub in Wl. }
  split.
  - unfold told_actions. apply words_without. apply without_app. split; [apply (head_without _ rF rJ RF RJ); auto|apply Wl; discriminate].
  - intros n. apply action_options_without. apply without_app. split; [apply (head_without _ rF rJ RF RJ); auto|apply Wl; discriminate].
Qed.

Definition first_part := [CAdd name (backend_of J)] ++ ups J ++ prios J ++ ups F ++ prios F.
Lemma structure3 : exists rF rJ acts, rests F = Some rF /\ rests J = Some rJ /\ actions_convert E name (j_actions j) = Some acts
  /\ s = first_part ++ rF ++ rJ ++ others J ++ logs ++ acts.
Proof.
  destruct (structure E allow j F s HC HF) as (rF & rJ & acts & RF & RJ & AC & ->). exists rF, rJ, acts. unfold first_part. cbn [app]. rewrite <- !app_assoc. auto.
Qed.
Lemma regex_position a c b k : s = a ++ c :: b -> key_of c = Some (tx "addfailregex") \/ key_of c = Some (tx "addignoreregex") -> In k first_options -> told k a = told k s.
Proof.
  intros Es Hc Ik. destruct structure3 as (rF & rJ & acts & RF & RJ & AC & Hs). rewrite Hs in Es.
  assert (W : forall k', k' = tx "addfailregex" \/ k' = tx "addignoreregex" -> without k' first_part).
  { intros k' K. unfold first_part. repeat rewrite without_app. split; [apply add_without|].
    split; [apply ups_without; destruct K as [-> | ->]; discriminate|]. split; [apply prios_without; destruct K as [-> | ->]; discriminate|].
    split; [apply ups_without; destruct K as [-> | ->]; discriminate|]. apply prios_without; destruct K as [-> | ->]; discriminate. }
  assert (SA : exists a', a = first_part ++ a' /\ rF ++ rJ ++ others J ++ logs ++ acts = a' ++ c :: b).
  { destruct Hc as [Hc|Hc]; eapply (split_after (fun c => key_of c = _)); try exact Es; try exact Hc; apply W; auto. }
  destruct SA as (a' & -> & Et). rewrite Hs.
  assert (T : without k (rF ++ rJ ++ others J ++ logs ++ acts)).
  { repeat rewrite without_app. assert (Ig : In k ignore_opts) by (cbn in Ik; destruct Ik as [<-|[<-|[<-|[]]]]; apply inb_In; reflexivity).
    assert (R : forall o r, rests o = Some r -> without k r) by (intros o r R; apply (rests_without E j k o r R); destruct Ik as [<-|[<-|[<-|[]]]]; absent).
    split; [now apply (R F)|]. split; [now apply (R J)|]. split; [apply others_without; [exact HP|destruct Ik as [<-|[<-|[<-|[]]]]; discriminate|auto]|].
    split; [apply logs_without'|apply (acts_without E j k _ _ AC)]; destruct Ik as [<-|[<-|[<-|[]]]]; discriminate. }
  assert (T' : without k a') by (rewrite Et in T; now apply without_sub in T).
  now rewrite !(told_cut k first_part) by assumption.
Qed.

(** ** Actions *)
Lemma structure4 : exists pre acts, actions_convert E name (j_actions j) = Some acts /\ s = pre ++ acts /\ without (tx "addaction") pre /\ without (tx "action") pre.
Proof.
  destruct structure2 as (rF & rJ & acts & RF & RJ & AC & Hs). exists (head_part rF rJ ++ logs), acts. split; [exact AC|]. split; [now rewrite <- app_assoc|].
  split; apply without_app; (split; [apply head_without; auto|apply logs_without'; discriminate]).
Qed.
Lemma acts_args l acts : actions_convert E name l = Some acts -> told_words (tx "addaction") acts = map action_args l.
Proof.
  revert acts. induction l as [|a l IH]; intros acts H; cbn [actions_convert] in H; [injection H as <-; reflexivity|].
  destruct (match a with APython n p js => _ | ACommand a => _ end) as [x|] eqn:X; [|discriminate]. destruct (actions_convert E name l) as [r|] eqn:R; [|discriminate].
  injection H as <-. rewrite words_app, (IH r eq_refl). cbn [map].
  destruct a as [n p js|a].
  - injection X as <-. reflexivity.
  - unfold action_convert in X. destruct (get_combined _ _ _ _ _) as [o|]; [|discriminate]. injection X as <-.
    destruct (action_multi o (a_init a)) as [|[k v] [|kv m]]; reflexivity.
Qed.
Lemma actions_told : told_actions s = map action_args (j_actions j).
Proof.
  destruct structure4 as (pre & acts & AC & -> & W & _). unfold told_actions. rewrite words_app, (words_without _ _ W). cbn [app].
  exact (acts_args _ _ AC).
Qed.
Lemma multi_In o init k v : In (k, v) (action_multi o init) <-> (In k (names action_opts) /\ In (k, v) o \/ ~ In k (names action_opts) /\ In (k, v) init /\ starts_with (tx "known/") k = false).
Proof.
  unfold action_multi. rewrite in_app_iff, !filter_In. cbn [fst]. rewrite !andb_true_iff, !negb_true_iff, inb_In, inb_false.
  assert (K : In k (names action_opts) -> starts_with (tx "known/") k = false).
  { intros I. vm_compute in I. repeat (destruct I as [<-|I]; [reflexivity|]). contradiction. }
  tauto.
Qed.
Lemma acts_options n l acts : actions_convert E name l = Some acts -> forall k v, In (k, v) (told_action_options n acts) <->
  exists a A, In (ACommand a) l /\ a_name a = n /\ get_combined E action_opts action_ignore (a_opts a) (a_init a) = Some A /\ In (k, v) (action_multi A (a_init a)).
Proof.
  revert acts. induction l as [|a l IH]; intros acts H k v; cbn [actions_convert] in H; [injection H as <-; cbn; split; [intros []|intros (a & A & [] & _)]|].
  destruct (match a with APython n p js => _ | ACommand a => _ end) as [x|] eqn:X; [|discriminate]. destruct (actions_convert E name l) as [r|] eqn:R; [|discriminate].
  injection H as <-. rewrite action_options_app, in_app_iff, (IH r eq_refl k v).
  assert (One : In (k, v) (told_action_options n x) <-> exists a' A, a = ACommand a' /\ a_name a' = n /\ get_combined E action_opts action_ignore (a_opts a') (a_init a') = Some A /\ In (k, v) (action_multi A (a_init a'))).
  { destruct a as [m p js|a].
    - injection X as <-. unfold told_action_options, flat. cbn [map concat app]. change (eqb (tx "addaction") (tx "action")) with false. cbn [andb app].
      split; [intros []|intros (a' & A & [=] & _)].
    - unfold action_convert in X. destruct (get_combined _ _ _ _ _) as [o|] eqn:G; [|discriminate]. injection X as <-.
      assert (T : told_action_options n (CSet name [VText (tx "addaction"); VText (a_name a)] :: match action_multi o (a_init a) with [] => [] | [(k, v)] => [CSet name [VText (tx "action"); VText (a_name a); VText k; v]] | l => [CMultiAct name (a_name a) l] end)
        = if eqb (a_name a) n then action_multi o (a_init a) else []).
      { unfold told_action_options, flat. cbn [map concat app]. destruct (action_multi o (a_init a)) as [|[k1 v1] [|kv m]]; cbn [map concat app].
        - now destruct (eqb (a_name a) n).
        - rewrite eqb_refl. cbn [andb]. rewrite app_nil_r. reflexivity.
        - rewrite app_nil_r. reflexivity. }
      match goal with |- In _ (told_action_options n ?y) <-> _ => replace (told_action_options n y) with (if eqb (a_name a) n then action_multi o (a_init a) else []) by (symmetry; exact T) end.
      destruct (eqb_spec (a_name a) n) as [Hn|Hn].
      + split; [intros I; exists a, o; auto|]. intros (a' & A & [= <-] & _ & G' & I). rewrite G in G'. injection G' as <-. exact I.
      + split; [intros []|]. intros (a' & A & [= <-] & Hn' & _). contradiction. }
  rewrite One. split.
  - intros [(a' & A & -> & H)|(a' & A & I & H)]; exists a', A; (split; [|exact H]); [now left|now right].
  - intros (a' & A & [->|I] & H); [left|right]; exists a', A; auto.
Qed.
Lemma actions_options n k v : In (k, v) (told_action_options n s) <->
  exists a A, In (ACommand a) (j_actions j) /\ a_name a = n /\ get_combined E action_opts action_ignore (a_opts a) (a_init a) = Some A
  /\ (In k (names action_opts) /\ In (k, v) A \/ ~ In k (names action_opts) /\ In (k, v) (a_init a) /\ starts_with (tx "known/") k = false).
Proof.
  destruct structure4 as (pre & acts & AC & -> & _ & W). rewrite action_options_app, (action_options_without n _ W). cbn [app].
  rewrite (acts_options n _ _ AC k v). split; intros (a & A & I & Hn & G & M); exists a, A; [apply multi_In in M|]; (split; [exact I|]); (split; [exact Hn|]); (split; [exact G|]); [exact M|now apply multi_In].
Qed.
End WithEnv.
