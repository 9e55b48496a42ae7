(** Proofs about setting up the server, part 2: what a command does to its jail. *)
From Verif Require Import Base Text Options_Model Options_Spec.
From Verif Require Stream_Model Stream_Spec Stream_Proofs Stream_Proofs5.
From Verif Require Import Server_Model Server_Spec Server_Proofs Server_Proofs2 Server_Proofs5 Server_Proofs6 Setup_Model Setup_Spec.
From Verif Require Setup_Proofs.
Local Open Scope string_scope.
Local Open Scope list_scope.
Import Stream_Model (cmd(..), val(..)).
Import Setup_Proofs (shape(..)).

Lemma str_inj a b : str a = str b -> a = b.
Proof. unfold str. intros H. rewrite <- (list_ascii_of_string_of_list_ascii a), <- (list_ascii_of_string_of_list_ascii b). now rewrite H. Qed.
Lemma str_eqb a b : eqb (str a) (str b) = eqb a b.
Proof. destruct (eqb_spec (str a) (str b)) as [H|H], (eqb_spec a b) as [K|K]; try reflexivity; [apply str_inj in H; contradiction|subst; contradiction]. Qed.

(** What commands [l] about a jail do to it. *)
Definition told_log_names (l : list cmd) : list string := map (fun ft => str (fst ft)) (Stream_Spec.told_logs l).
Record eff (w : env) (l : list cmd) (J J' : jail) : Prop := {
  ef_backend : j_backend J' = j_backend J;
  ef_filter : j_filter J' = j_filter J; ef_actions : j_actions J' = j_actions J; ef_idle : j_idle J' = j_idle J;
  ef_bans : j_bans J' = j_bans J; ef_rlogs : j_rlogs J' = j_rlogs J;
  ef_fail : j_fail J' = j_fail J ++ map str (Stream_Spec.told_added (tx "addfailregex") l);
  ef_ignore : j_ignore J' = j_ignore J ++ map str (Stream_Spec.told_added (tx "addignoreregex") l);
  ef_ips : j_ips J' = j_ips J ++ map py (concat (Stream_Spec.told_words (tx "addignoreip") l));
  ef_logs : forall p, In p (j_logs J') <-> In p (j_logs J) \/ reads_files (j_backend J) = true /\ In p (told_log_names l);
  ef_nodup : NoDup (j_logs J) -> NoDup (j_logs J');
  ef_opts : forall k, dget (str k) (j_opts J') =
    if inb k one_value then match Stream_Spec.told k l with Some v => e_value w (str k) (py v) | None => dget (str k) (j_opts J) end
    else dget (str k) (j_opts J);
  ef_taken : forall k, inb k one_value = true -> match Stream_Spec.told k l with Some v => e_value w (str k) (py v) <> None | None => True end }.

Lemma eff_nil w J : eff w [] J J.
Proof.
  constructor; try reflexivity; try (cbn; rewrite ?app_nil_r; reflexivity); auto.
  - intros p. cbn. tauto.
  - intros k. now destruct (inb k one_value).
Qed.
Lemma told_app k a b : Stream_Spec.told k (a ++ b) = Stream_Spec.orelse (Stream_Spec.told k b) (Stream_Spec.told k a).
Proof.
  unfold Stream_Spec.told, Stream_Spec.told_values. rewrite Stream_Proofs.flat_app. unfold Stream_Spec.last_of. rewrite rev_app_distr.
  destruct (rev (Stream_Spec.flat _ b)); reflexivity.
Qed.
Lemma eff_app w a b J J1 J2 : eff w a J J1 -> eff w b J1 J2 -> eff w (a ++ b) J J2.
Proof.
  intros X Y. constructor.
  1-6: destruct X, Y; congruence.
  - rewrite (ef_fail _ _ _ _ Y), (ef_fail _ _ _ _ X). unfold Stream_Spec.told_added. rewrite Stream_Proofs.flat_app, map_app. now rewrite app_assoc.
  - rewrite (ef_ignore _ _ _ _ Y), (ef_ignore _ _ _ _ X). unfold Stream_Spec.told_added. rewrite Stream_Proofs.flat_app, map_app. now rewrite app_assoc.
  - rewrite (ef_ips _ _ _ _ Y), (ef_ips _ _ _ _ X). unfold Stream_Spec.told_words. rewrite Stream_Proofs.flat_app, concat_app, map_app. now rewrite app_assoc.
  - intros p. rewrite (ef_logs _ _ _ _ Y), (ef_logs _ _ _ _ X), (ef_backend _ _ _ _ X). unfold told_log_names, Stream_Spec.told_logs. rewrite Stream_Proofs.flat_app, map_app, in_app_iff. tauto.
  - intros H. apply (ef_nodup _ _ _ _ Y), (ef_nodup _ _ _ _ X), H.
  - intros k. rewrite (ef_opts _ _ _ _ Y), (ef_opts _ _ _ _ X), told_app. destruct (inb k one_value) eqn:I; [|reflexivity]. 
    destruct (Stream_Spec.told k b); [reflexivity|]. cbn [Stream_Spec.orelse]. reflexivity.
  - intros k I. rewrite told_app. pose proof (ef_taken _ _ _ _ X k I). pose proof (ef_taken _ _ _ _ Y k I). destruct (Stream_Spec.told k b); cbn [Stream_Spec.orelse]; auto.
Qed.

(** ** The words *)
Definition words_before : list string := ["idle"; "addignoreip"; "delignoreip"; "addlogpath"; "dellogpath"; "addfailregex"; "addignoreregex"; "delfailregex"; "delignoreregex"].
Definition words_after : list string := ["banip"; "unbanip"; "attempt"; "addjournalmatch"; "deljournalmatch"; "addaction"; "delaction"; "action"].
Definition value_word (k : string) : bool := is_value_setting k && negb (inb k words_before).
Definition wrong_word (k : string) : bool := negb (is_value_setting k) && negb (inb k words_before) && negb (inb k words_after).
Lemma not_inb (k : string) (l : list string) x : inb k l = false -> In x l -> eqb k x = false.
Proof. intros H I. apply eqb_neq. intros ->. apply inb_false in H. contradiction. Qed.
Ltac skip_words H := unfold set_key; rewrite !(not_inb _ _ _ H) by (cbn; tauto); cbn [orb].
Lemma set_value_word w m n k v s : value_word k = true -> set_key w m n k [T v] s =
  match e_value w k v with None => (s, Bad EValue) | Some x => on_jail n s (fun j => (with_opts (dset k x (j_opts j)) j, None)) (fun _ => VTxt x) end.
Proof. unfold value_word. rewrite andb_true_iff, negb_true_iff. intros [V B]. skip_words B. now rewrite V. Qed.
Lemma set_wrong_word w m n k vs s : wrong_word k = true -> set_key w m n k vs s = (s, Bad EInvalid).
Proof.
  unfold wrong_word. rewrite !andb_true_iff, !negb_true_iff. intros [[V B] C]. skip_words B. rewrite V. rewrite !(not_inb _ _ _ C) by (cbn; tauto).
  assert (inb k ["addjournalmatch"; "deljournalmatch"; "addaction"; "delaction"; "action"] = false) as ->.
  { apply inb_false. apply inb_false in C. intros I. apply C. do 3 right. exact I. }
  reflexivity.
Qed.
Lemma one_value_word k : In k one_value -> value_word (str k) = true.
Proof.
  intros I. assert (H : forallb (fun k => value_word (str k)) one_value = true) by (vm_compute; reflexivity). rewrite forallb_forall in H. now apply H.
Qed.
Definition pieces (l : text) : list text := flat_map (fun i => map (fun m => firstn m (skipn i l)) (seq 0 (S (length l)))) (seq 0 (S (length l))).
Lemma piece_In l x a y : l = x ++ a ++ y -> In a (pieces l).
Proof.
  intros ->. unfold pieces. apply in_flat_map. exists (length x). split; [apply in_seq; rewrite app_length; lia|]. apply in_map_iff. exists (length a).
  split; [|apply in_seq; rewrite !app_length; lia].
  assert (K : forall (u v : text), skipn (length u) (u ++ v) = v) by (intros u v; induction u; auto).
  assert (K2 : forall (u v : text), firstn (length u) (u ++ v) = u) by (intros u v; induction u; cbn; congruence). now rewrite K, K2.
Qed.
Lemma sub_word k : Stream_Model.substring k (tx "datepattern") = true -> In k one_value \/ wrong_word (str k) = true.
Proof.
  intros H. apply Stream_Proofs5.substring_spec in H as (x & y & H). apply piece_In in H.
  assert (C : forallb (fun k => inb k one_value || wrong_word (str k)) (pieces (tx "datepattern")) = true) by (vm_compute; reflexivity).
  rewrite forallb_forall in C. specialize (C k H). apply orb_true_iff in C as [C|C]; [left; now apply inb_In|now right].
Qed.

(** ** A command about a jail *)
Lemma on_jail_good n s f ret s' v j : on_jail n s f ret = (s', Good v) -> jail_of s n = Some j -> exists j', f j = (j', None) /\ s' = put n j' s.
Proof. unfold on_jail, lookup, jail_of. intros H K. rewrite K in H. destruct (f j) as [j' [e|]]; [discriminate|]. injection H as <- _. now exists j'. Qed.
Lemma jail_put n j s : jail_of (put n j s) n = Some j.
Proof. unfold jail_of, put, set_jails. cbn [s_jails]. apply dget_dset_same. Qed.
Lemma add_each_good okv vs : forall l l', add_each okv vs l = (l', true) -> l' = l ++ vs.
Proof.
  induction vs as [|v vs IH]; intros l l' H; cbn in H; [injection H as <-; now rewrite app_nil_r|]. destruct (okv v); [|discriminate].
  apply IH in H. rewrite <- app_assoc in H. exact H.
Qed.
Lemma told_one k n o v : Stream_Spec.told k [CSet n [VText o; v]] = if eqb o k then Some v else None.
Proof. unfold Stream_Spec.told, Stream_Spec.told_values, Stream_Spec.flat. cbn [map concat]. destruct (eqb o k); reflexivity. Qed.

Definition add_regex (w : env) (m : bool) (n : string) (isfail : bool) (l : list string) (s : srv) : srv * res :=
  let '(s', r) := on_jail n s
          (fun j => let '(x, ok) := add_each (e_regex w) l (if isfail then j_fail j else j_ignore j) in
                    (if isfail then with_fail x j else with_ignore x j, if ok then None else Some EValue))
          (fun j => VLst (if isfail then j_fail j else j_ignore j)) in
        (s', match r with Good _ => if m then Good (Server_Model.VBool true) else r | Bad _ => r end).
Lemma set_fail w n v s : set_key w false n (str (tx "addfailregex")) [T v] s = add_regex w false n true [v] s.
Proof. reflexivity. Qed.
Lemma set_ignore w n v s : set_key w false n (str (tx "addignoreregex")) [T v] s = add_regex w false n false [v] s.
Proof. reflexivity. Qed.
Lemma mset_fail w n l s : set_key w true n (str (tx "addfailregex")) [A l] s = match texts l with Some x => add_regex w true n true x s | None => (s, Bad EType) end.
Proof. unfold set_key. destruct (texts l); reflexivity. Qed.
Lemma mset_ignore w n l s : set_key w true n (str (tx "addignoreregex")) [A l] s = match texts l with Some x => add_regex w true n false x s | None => (s, Bad EType) end.
Proof. unfold set_key. destruct (texts l); reflexivity. Qed.
Lemma set_oracle w m n k vs s : In k ["addjournalmatch"; "addaction"; "action"] -> set_key w m n k vs s =
  match lookup s n with None => (s, Bad (EUnknown n)) | Some _ => (s, e_other w (T n :: T k :: vs)) end.
Proof. intros [<-|[<-|[<-|[]]]]; reflexivity. Qed.
Lemma add_regex_good w m n f l s s' v J : add_regex w m n f l s = (s', Good v) -> jail_of s n = Some J ->
  s' = put n (if f then with_fail (j_fail J ++ l) J else with_ignore (j_ignore J ++ l) J) s.
Proof.
  unfold add_regex. intros H HJ. destruct (on_jail _ _ _ _) as [s1 r1] eqn:X. injection H as <- H. destruct r1 as [v1|]; [|discriminate].
  apply on_jail_good with (j := J) in X as (j' & E & ->); [|exact HJ]. destruct (add_each _ _ _) as [x [|]] eqn:AE; [|discriminate]. injection E as <-. apply add_each_good in AE as ->. now destruct f.
Qed.

Lemma added_other k m o l : eqb o k = false -> Stream_Spec.told_added k [CSet m (VText o :: l)] = [].
Proof. intros H. unfold Stream_Spec.told_added, Stream_Spec.flat. cbn [map concat]. destruct l as [|[] [|? ?]]; try reflexivity. now rewrite H. Qed.
Lemma words_one k m o l : Stream_Spec.told_words k [CSet m (VText o :: l)] = if eqb o k then [l] else [].
Proof. unfold Stream_Spec.told_words, Stream_Spec.flat. cbn [map concat]. now destruct (eqb o k). Qed.
Lemma logs_other m o l : eqb o (tx "addlogpath") = false -> Stream_Spec.told_logs [CSet m (VText o :: l)] = [].
Proof. intros H. unfold Stream_Spec.told_logs, Stream_Spec.flat. cbn [map concat]. destruct l as [|[] [|[] [|? ?]]]; try reflexivity. now rewrite H. Qed.

Section Step.
Context (w : env) (n : text).
Context (HS : ~ In (str n) server_settings).
Lemma not_setting : inb (str n) server_settings = false.
Proof. now apply inb_false. Qed.
Lemma handler_set k vs s : handler w (A (T "set" :: T (str n) :: T k :: vs)) s = set_key w false (str n) k vs s.
Proof. change (handler w (A (T "set" :: T (str n) :: T k :: vs)) s) with (command_set w false (T (str n) :: T k :: vs) s). unfold command_set. now rewrite not_setting. Qed.
Lemma handler_mset k vs s : handler w (A (T "multi-set" :: T (str n) :: T k :: vs)) s = set_key w true (str n) k vs s.
Proof. change (handler w (A (T "multi-set" :: T (str n) :: T k :: vs)) s) with (command_set w true (T (str n) :: T k :: vs) s). unfold command_set. now rewrite not_setting. Qed.

Lemma map_py l : map py (map VText l) = map str l.
Proof. rewrite map_map. reflexivity. Qed.
Lemma map_Tpy l : map (fun v => T (py v)) (map VText l) = map T (map str l).
Proof. rewrite !map_map. reflexivity. Qed.

(** A command that adds nothing modelled. *)
Lemma eff_other c J : Stream_Spec.told_added (tx "addfailregex") [c] = [] -> Stream_Spec.told_added (tx "addignoreregex") [c] = [] ->
  concat (Stream_Spec.told_words (tx "addignoreip") [c]) = [] -> Stream_Spec.told_logs [c] = [] -> (forall k, inb k one_value = true -> Stream_Spec.told k [c] = None) -> eff w [c] J J.
Proof.
  intros A1 A2 A3 A4 A5. constructor; try reflexivity; rewrite ?A1, ?A2, ?A3; cbn [map]; rewrite ?app_nil_r; auto.
  - intros p. unfold told_log_names. rewrite A4. cbn. tauto.
  - intros k. destruct (inb k one_value) eqn:I; [|reflexivity]. now rewrite A5.
  - intros k I. now rewrite A5.
Qed.
Lemma not_told k o m l : inb k one_value = true -> inb o one_value = false -> Stream_Spec.told k [CSet m (VText o :: l)] = None.
Proof.
  intros I O. assert (o <> k) by (intros ->; congruence). unfold Stream_Spec.told, Stream_Spec.told_values, Stream_Spec.flat. cbn [map concat].
  destruct l as [|v [|? ?]]; try reflexivity. apply eqb_neq in H. rewrite H. reflexivity.
Qed.
Lemma one_value_not k o : In k one_value -> inb o one_value = false -> eqb k o = false.
Proof. intros I O. apply eqb_neq. intros ->. apply inb_In in I. congruence. Qed.

Lemma step_shape c s s' v J : shape n c -> handler w (encode c) s = (s', Good v) -> jail_of s (str n) = Some J -> j_rlogs J = None ->
  exists J', jail_of s' (str n) = Some J' /\ eff w [c] J J'.
Proof.
  intros Sh H HJ HR. destruct Sh as [k x Hk|k r Hk|k l Hk|l|l|p t|l|l|a l]; cbn [encode map] in H.
  - assert (Hk' : In k one_value).
    { destruct Hk as [Hk|Hk]; [exact Hk|]. destruct (sub_word k Hk) as [K|K]; [exact K|]. rewrite handler_set in H. cbn [py] in H. rewrite set_wrong_word in H by exact K. discriminate. }
    cbn [py] in H. rewrite handler_set, set_value_word in H by now apply one_value_word. destruct (e_value w (str k) (py x)) as [y|] eqn:Ev; [|discriminate].
    apply on_jail_good with (j := J) in H as (j' & E & ->); [|exact HJ]. injection E as <-. eexists. split; [apply jail_put|].
    assert (Q : forall o, inb o one_value = false -> eqb k o = false) by (intros o Ho; now apply one_value_not).
    constructor; try reflexivity; try (cbn; rewrite ?app_nil_r; reflexivity); auto.
    + unfold Stream_Spec.told_added, Stream_Spec.flat. cbn [map concat]. destruct x; cbn [app map]; rewrite ?Q by reflexivity; cbn [app map]; now rewrite ?app_nil_r.
    + unfold Stream_Spec.told_added, Stream_Spec.flat. cbn [map concat]. destruct x; cbn [app map]; rewrite ?Q by reflexivity; cbn [app map]; now rewrite ?app_nil_r.
    + unfold Stream_Spec.told_words, Stream_Spec.flat. cbn [map concat]. rewrite Q by reflexivity. cbn. now rewrite app_nil_r.
    + intros p. unfold told_log_names, Stream_Spec.told_logs, Stream_Spec.flat. cbn [map concat]. destruct x; cbn; tauto.
    + intros k'. rewrite told_one. cbn [j_opts with_opts]. destruct (eqb_spec k k') as [<-|N].
      * apply inb_In in Hk'. rewrite Hk', dget_dset_same. symmetry. exact Ev.
      * rewrite dget_dset_other by (intros E; apply str_inj in E; congruence). now destruct (inb k' one_value).
    + intros k' I. rewrite told_one. destruct (eqb_spec k k') as [<-|]; [congruence|exact Logic.I].
  - assert (O : inb k one_value = false) by (destruct Hk as [-> | ->]; reflexivity). cbn [py] in H. rewrite handler_set in H.
    destruct Hk as [-> | ->]; rewrite ?set_fail, ?set_ignore in H; apply add_regex_good with (J := J) in H as ->; [|exact HJ| |exact HJ]; (eexists; split; [apply jail_put|]).
    + constructor; try reflexivity; try (cbn; rewrite ?app_nil_r; reflexivity); auto; try (intros p; cbn; tauto).
      * intros k'. cbn [j_opts with_fail]. destruct (inb k' one_value) eqn:I'; [|reflexivity]. now rewrite not_told.
      * intros k' I'. now rewrite not_told.
    + constructor; try reflexivity; try (cbn; rewrite ?app_nil_r; reflexivity); auto; try (intros p; cbn; tauto).
      * intros k'. cbn [j_opts with_ignore]. destruct (inb k' one_value) eqn:I'; [|reflexivity]. now rewrite not_told.
      * intros k' I'. now rewrite not_told.
  - rewrite handler_mset in H. assert (TM : texts (map (fun t => T (str t)) l) = Some (map str l)) by (rewrite <- (map_map str T); apply texts_map).
    destruct Hk as [-> | ->]; rewrite ?mset_fail, ?mset_ignore, TM in H; apply add_regex_good with (J := J) in H as ->; [|exact HJ| |exact HJ]; (eexists; split; [apply jail_put|]).
    + constructor; try reflexivity; try (cbn; rewrite ?app_nil_r; reflexivity); auto; try (intros p; cbn; tauto).
      intros k'. destruct (inb k' one_value); reflexivity.
    + constructor; try reflexivity; try (cbn; rewrite ?app_nil_r; reflexivity); auto; try (intros p; cbn; tauto).
      intros k'. destruct (inb k' one_value); reflexivity.
  - cbn [py] in H. rewrite handler_set, map_Tpy in H. change (set_key w false (str n) (str (tx "addignoreip")) (map T (map str l)) s) with
      (match texts (map T (map str l)) with
       | None => (s, Bad EType)
       | Some l => if (match l with [] => true | _ => false end) && s_quiet s then (s, Good Server_Model.VNone)
                else on_jail (str n) s (fun j => let '(x, ok) := add_each (e_ip w) l (j_ips j) in (with_ips x j, if ok then None else Some EValue)) (fun j => VLst (j_ips j))
       end) in H. rewrite texts_map in H.
    assert (TW : concat (Stream_Spec.told_words (tx "addignoreip") [CSet n (VText (tx "addignoreip") :: map VText l)]) = map VText l) by (rewrite words_one, eqb_refl; cbn [concat]; now rewrite app_nil_r).
    destruct (_ && s_quiet s) eqn:Em in H.
    + injection H as <- _. exists J. split; [exact HJ|]. apply andb_true_iff in Em as [Em _]. destruct l; [|discriminate]. apply eff_other; reflexivity.
    + apply on_jail_good with (j := J) in H as (j' & E & ->); [|exact HJ]. destruct (add_each _ _ _) as [x [|]] eqn:AE; [|discriminate]. injection E as <-. apply add_each_good in AE as ->. eexists. split; [apply jail_put|].
      constructor; try reflexivity; auto.
      * rewrite added_other by reflexivity. cbn. now rewrite app_nil_r.
      * rewrite added_other by reflexivity. cbn. now rewrite app_nil_r.
      * rewrite TW, map_py. reflexivity.
      * intros p. unfold told_log_names. rewrite logs_other by reflexivity. cbn. tauto.
      * intros k'. cbn [j_opts with_ips]. destruct (inb k' one_value) eqn:I'; [|reflexivity]. now rewrite not_told.
      * intros k' I'. now rewrite not_told.
  - cbn [py] in H. rewrite handler_set, map_Tpy in H. rewrite set_oracle in H by (cbn; tauto). unfold lookup in H. unfold jail_of in HJ. rewrite HJ in H. injection H as <- _.
    exists J. split; [exact HJ|]. apply eff_other; rewrite ?words_one; try apply added_other; try apply logs_other; try reflexivity. intros k I. now rewrite not_told.
  - cbn [py] in H. rewrite handler_set in H. change (set_key w false (str n) (str (tx "addlogpath")) [T (str p); T (str t)] s) with
      (if eqb (lower (str t)) "tail" || eqb (lower (str t)) "head" then on_jail (str n) s (fun j => (add_log (str p) j, None)) (fun j => VLst (j_logs j)) else (s, Bad EValue)) in H.
    destruct (_ || _); [|discriminate]. apply on_jail_good with (j := J) in H as (j' & E & ->); [|exact HJ]. injection E as <-. eexists. split; [apply jail_put|].
    assert (AL : add_log (str p) J = J /\ (reads_files (j_backend J) = false \/ In (str p) (j_logs J)) \/ add_log (str p) J = with_logs (j_logs J ++ [str p]) None J /\ reads_files (j_backend J) = true /\ ~ In (str p) (j_logs J)).
    { unfold add_log. rewrite HR. destruct (reads_files (j_backend J)); cbn [negb]; [|left; auto]. destruct (inb (str p) (j_logs J)) eqn:I; [left; split; [reflexivity|right; now apply inb_In]|right; split; [reflexivity|split; [reflexivity|now apply inb_false]]]. }
    destruct AL as [[-> Q]|(-> & Q & Q')].
    + constructor; try reflexivity; try (cbn; rewrite ?app_nil_r; reflexivity); auto.
      * intros q. cbn. destruct Q as [Q|Q]; [rewrite Q; intuition discriminate|]. split; [tauto|]. intros [K|[_ [<-|[]]]]; assumption.
      * intros k'. destruct (inb k' one_value) eqn:I'; [|reflexivity]. now rewrite not_told.
    + constructor; try reflexivity; try (cbn; rewrite ?app_nil_r; reflexivity); auto.
      * intros q. cbn. rewrite in_app_iff. split; [intros [K|K]; [now left|right; now split]|intros [K|[_ K]]; [now left|now right]].
      * intros ND. cbn [j_logs with_logs]. apply NoDup_snoc; auto.
      * intros k'. cbn [j_opts with_logs]. destruct (inb k' one_value) eqn:I'; [|reflexivity]. now rewrite not_told.
  - cbn [py] in H. rewrite handler_set in H. rewrite set_oracle in H by (cbn; tauto). unfold lookup in H. unfold jail_of in HJ. rewrite HJ in H. injection H as <- _.
    exists J. split; [exact HJ|]. apply eff_other; rewrite ?words_one; try apply added_other; try apply logs_other; try reflexivity. intros k I. now rewrite not_told.
  - cbn [py] in H. rewrite handler_set in H. rewrite set_oracle in H by (cbn; tauto). unfold lookup in H. unfold jail_of in HJ. rewrite HJ in H. injection H as <- _.
    exists J. split; [exact HJ|]. apply eff_other; rewrite ?words_one; try apply added_other; try apply logs_other; try reflexivity. intros k I. now rewrite not_told.
  - rewrite handler_mset in H. rewrite set_oracle in H by (cbn; tauto). unfold lookup in H. unfold jail_of in HJ. rewrite HJ in H. injection H as <- _.
    exists J. split; [exact HJ|]. apply eff_other; reflexivity.
Qed.
End Step.
