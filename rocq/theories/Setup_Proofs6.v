(** Proofs about setting up the server, part 6: a start that fails; the commands of a reload. *)
From Verif Require Import Base Text Options_Model Options_Spec.
From Verif Require Stream_Model Stream_Spec Stream_Proofs Stream_Proofs5 Stream_Proofs7 Stream_Props.
From Verif Require Import Server_Model Server_Spec Server_Proofs Server_Proofs2 Server_Proofs5 Server_Proofs6 Setup_Model Setup_Spec.
From Verif Require Setup_Proofs.
From Verif Require Import Setup_Proofs2 Setup_Proofs3 Setup_Proofs4 Setup_Proofs5.
Local Open Scope string_scope.
Local Open Scope list_scope.
Import Stream_Model (cmd(..), val(..)).
Import Setup_Proofs (shape(..)).

(** ** Commands other than starts *)
Definition all_new (s : srv) : Prop := forall n J, jail_of s n = Some J -> j_filter J = TNew /\ j_actions J = TNew.
Lemma jail_put_other m n j s : m <> n -> jail_of (put n j s) m = jail_of s m.
Proof. intros N. unfold jail_of, put, set_jails. cbn [s_jails]. now apply dget_dset_other. Qed.
Lemma set_state w b args s : all_new s -> all_new (fst (command_set w b args s)) /\ forall m, jail_of s m <> None -> jail_of (fst (command_set w b args s)) m <> None.
Proof.
  intros N. destruct (command_set_shape w b args s) as [->|(n & j & j' & r & _ & L & -> & TW)]; [auto|]. split.
  - intros m J H. destruct (string_dec m n) as [->|D]; [rewrite jail_put in H; injection H as <-|rewrite jail_put_other in H by exact D; now apply (N m J)].
    destruct (N n j L). rewrite (tw_filter _ _ TW), (tw_actions _ _ TW). auto.
  - intros m H. destruct (string_dec m n) as [->|D]; [rewrite jail_put; discriminate|now rewrite jail_put_other].
Qed.
Lemma add_state w n b s : s_reload s = [] -> all_new s -> all_new (fst (add_jail w n b s)) /\ forall m, jail_of s m <> None -> jail_of (fst (add_jail w n b s)) m <> None.
Proof.
  intros R N. unfold add_jail. rewrite R. cbn [dget]. unfold jails_add. destruct (dmem n (s_jails s)) eqn:D; [auto|]. destruct (e_make w n b); [|auto].
  assert (K : forall s', s_jails s' = dset n (new_jail (s_next s) b) (s_jails s) -> all_new s' /\ forall m, jail_of s m <> None -> jail_of s' m <> None).
  { intros s' E. unfold jail_of. rewrite E. split.
    - intros m J H. unfold jail_of in H. rewrite E in H. destruct (string_dec m n) as [->|Dm]; [rewrite dget_dset_same in H; injection H as <-; auto|rewrite dget_dset_other in H by exact Dm; now apply (N m J)].
    - intros m H. destruct (string_dec m n) as [->|Dm]; [rewrite dget_dset_same; discriminate|now rewrite dget_dset_other]. }
  unfold db_add. destruct (s_db _); [destruct (e_dbadd w n)|]; cbn [fst]; apply K; reflexivity.
Qed.
Lemma cmd_state w c s : Stream_Spec.is_start c = false -> s_reload s = [] -> all_new s ->
  all_new (fst (handler w (encode c) s)) /\ forall m, jail_of s m <> None -> jail_of (fst (handler w (encode c) s)) m <> None.
Proof.
  intros St R N. assert (DN : forall p v, fst (done p v) = fst p) by (intros [x [e|]] v; reflexivity). destruct c as [m b|m l|m o l|m a l|m|m]; cbn [encode]; try discriminate.
  - change (handler w (A [T "add"; T (str m); T (py b)]) s) with (if eqb (str m) all_jails then (s, Bad EReserved) else done (add_jail w (str m) (py b) s) (VTxt (str m))).
    destruct (eqb (str m) all_jails); [auto|]. rewrite DN. now apply add_state.
  - apply (set_state w false (T (str m) :: map (fun v => T (py v)) l) s N).
  - apply (set_state w true [T (str m); T (str o); A (map (fun t => T (str t)) l)] s N).
  - apply (set_state w true [T (str m); T "action"; T (str a); A (map (fun kv => A [T (str (fst kv)); T (py (snd kv))]) l)] s N).
  - auto.
Qed.
Lemma stream_state w m : Forall (fun c => Stream_Spec.is_start c = false) m -> forall s s' e, s_reload s = [] -> all_new s -> stream w (map encode m) s = (s', e) ->
  all_new s' /\ forall k, jail_of s k <> None -> jail_of s' k <> None.
Proof.
  induction 1 as [|c m St F IH]; intros s s' e R N H; cbn [map] in H; [injection H as <- _; auto|]. rewrite stream_cons in H.
  destruct (cmd_state w c s St R N) as [N1 K1]. pose proof (reload_cmd w c s R) as R1. destruct (handler w (encode c) s) as [s1 [v|x]]; cbn [fst] in *.
  - destruct (IH s1 s' e R1 N1 H) as [N2 K2]. auto.
  - injection H as <- _. auto.
Qed.
(** ** Starts *)
Lemma starts_ok w l : threads_ok w -> NoDup l -> forall s, (forall n, In n l -> exists J, jail_of s (str n) = Some J /\ j_filter J = TNew /\ j_actions J = TNew) ->
  exists s', stream w (map encode (map CStart l)) s = (s', None).
Proof.
  intros TO. induction 1 as [|n l N ND IH]; intros s H; [exists s; reflexivity|]. cbn [map encode]. rewrite stream_cons.
  destruct (H n ltac:(now left)) as (J & HJ & Hf & Ha). change (handler w (A [T "start"; T (str n)]) s) with (done (start_jail w (str n) s) Server_Model.VNone).
  unfold start_jail, lookup. unfold jail_of in HJ. rewrite HJ. unfold is_alive at 1. rewrite Hf, Ha. cbn [t_alive orb negb]. unfold jail_start. rewrite Hf. destruct (TO (str n)) as [-> ->].
  cbn [j_actions with_threads]. rewrite Ha. cbn [is_alive t_alive j_filter j_actions with_threads orb j_idle done].
  apply IH. intros m Im. assert (str m <> str n) by (intros E; apply str_inj in E; congruence). destruct (H m ltac:(now right)) as (Jm & HJm & K). exists Jm. split; [|exact K].
  destruct (j_idle J); unfold jail_of; cbn [s_jails note put set_jails]; rewrite ?dget_dset_other by assumption; exact HJm.
Qed.

(** ** A start *)
Section Fail.
Context (C : config) (sel : option text) (w : env) (gs : list gcmd).
Context (WN : well_named C) (GD : Stream_Spec.gives_dicts (cf_env C)) (RC : read_config C sel = Some gs) (TO : threads_ok w).
Theorem failed S0 S1 e : s_reload S0 = [] -> s_jails S0 = [] -> stream w (map encode_cmd gs) S0 = (S1, Some e) -> all_new S1.
Proof.
  intros R0 J0 H. destruct (config_stream C sel gs WN RC) as (settings & l & s & Hg & Hset & JC & ND & Or & En). rewrite Hg, map_app, stream_app in H.
  assert (N0 : all_new S0) by (intros n J HJ; unfold jail_of in HJ; rewrite J0 in HJ; discriminate).
  pose proof (settings_stream w settings Hset S0) as HS0. destruct (stream w (map encode_cmd (map _ settings)) S0) as [Sx [x|]]; cbn [fst] in HS0; subst Sx; [injection H as <- _; exact N0|]. rewrite encode_jails in H.
  pose proof (Stream_Props.C73_stream (cf_env C) (cf_dump C) l) as PS. rewrite JC in PS. destruct PS as (_ & (parts & starts & Es & F2 & NS & St & _) & PJ). specialize (PJ ND).
  rewrite Es, map_app, stream_app in H. destruct (stream w (map encode (concat parts)) S0) as [S2 [x|]] eqn:E2.
  - injection H as <- _. now apply (stream_state w (concat parts) NS S0 S2 (Some x)).
  - exfalso. destruct (stream_state w (concat parts) NS S0 S2 None R0 N0 E2) as [N2 _].
    destruct (starts_ok w starts TO) with (s := S2) as [S3 E3]; [|intros n In_|congruence].
    + rewrite St. clear - ND. induction l as [|j l IH]; [constructor|]. cbn [map] in ND. apply NoDup_cons_iff in ND as [N ND]. cbn [filter]. destruct (Stream_Model.jail_convert _ _ j) as [|sj [|]]; auto.
      cbn [map]. constructor; [|now apply IH]. intros I. apply N. apply in_map_iff in I as (j' & E' & I). apply filter_In in I as [I _]. apply in_map_iff. now exists j'.
    + rewrite St in In_. apply in_map_iff in In_ as (j & <- & Ij). apply filter_In in Ij as [Il Hj]. destruct (Stream_Model.jail_convert _ _ j) as [|sj [|]] eqn:Cj; try discriminate.
      assert (Hsj : exists b s', sj = CAdd (Stream_Model.j_name j) b :: s').
      { destruct (Or j Il) as (n & A & <- & [[Rj Ej]|[x K]]); [|congruence]. destruct (Stream_Props.C71_exists (cf_env C) (cf_force C) (cf_dump C) (Stream_Model.j_name j) j sj GD Rj Ej Cj) as [F HF].
        destruct (Setup_Proofs.jail_shape (cf_env C) (cf_dump C) j F sj Cj) as (s' & -> & _); [apply HF|apply (Stream_Proofs7.jail_read _ _ _ _ Rj Ej)|eauto]. }
      destruct Hsj as (b & s' & ->).
      assert (Ip : In (CAdd (Stream_Model.j_name j) b) (concat parts)).
      { apply in_concat. exists (CAdd (Stream_Model.j_name j) b :: s'). split; [|now left]. clear - F2 Il Cj. induction F2 as [|j' p l parts [e H] F2 IH]; [contradiction|]. destruct Il as [->|Il]; [left; congruence|right; auto]. }
      apply in_split in Ip as (p1 & p2 & Ep). rewrite Ep, map_app, stream_app in E2. destruct (stream w (map encode p1) S0) as [Sa [x|]] eqn:Ea; [discriminate|]. cbn [map] in E2. rewrite stream_cons in E2.
      rewrite Ep in NS. apply Forall_app in NS as [NS1 NS2]. apply Forall_cons_iff in NS2 as [NSc NS2].
      pose proof (run_reload w p1 S0 Sa None R0 Ea) as Ra. destruct (stream_state w p1 NS1 S0 Sa None R0 N0 Ea) as [Na _].
      destruct (cmd_state w (CAdd (Stream_Model.j_name j) b) Sa NSc Ra Na) as [Nb _]. pose proof (reload_cmd w (CAdd (Stream_Model.j_name j) b) Sa Ra) as Rb.
      destruct (handler w (encode (CAdd (Stream_Model.j_name j) b)) Sa) as [Sb [v|x]] eqn:Eb; [|discriminate]. cbn [fst] in *. cbn [encode] in Eb.
      destruct (add_new w _ _ _ _ _ Eb Ra) as (_ & no & HJb). destruct (stream_state w p2 NS2 Sb S2 None Rb Nb E2) as [_ K]. specialize (K (str (Stream_Model.j_name j))). rewrite HJb in K.
      destruct (jail_of S2 (str (Stream_Model.j_name j))) as [J|] eqn:HJ; [|exfalso; apply K; [discriminate|reflexivity]]. exists J. split; [reflexivity|]. now apply (N2 _ J HJ).
Qed.
End Fail.

(** ** The commands are those of a configuration *)
Lemma shape_command n c : shape n c -> config_command (encode c).
Proof.
  assert (KV : forall k, In k one_value \/ Stream_Model.substring k (tx "datepattern") = true -> str k <> "banip" /\ str k <> "unbanip" /\ str k <> "dellogpath").
  { intros k H. assert (Q : value_word (str k) = true \/ wrong_word (str k) = true).
    { destruct H as [H|H]; [left; now apply one_value_word|]. destruct (sub_word k H) as [H'|H']; [left; now apply one_value_word|now right]. }
    repeat split; intros E; rewrite E in Q; destruct Q as [Q|Q]; vm_compute in Q; discriminate. }
  assert (ST : forall m k vs, (m = "set" \/ m = "multi-set") -> k <> "banip" /\ k <> "unbanip" /\ k <> "dellogpath" -> config_command (A (T m :: T (str n) :: T k :: vs))).
  { intros m k vs Hm (K1 & K2 & K3). right. right. left. exists m, (str n), k, vs. auto. }
  intros Sh. destruct Sh as [k x Hk|k r Hk|k l Hk|l|l|p t|l|l|a l]; cbn [encode map py]; apply ST; auto; try (repeat split; discriminate); destruct Hk as [-> | ->]; repeat split; discriminate.
Qed.
Lemma config_commands C sel gs : well_named C -> Stream_Spec.gives_dicts (cf_env C) -> read_config C sel = Some gs -> Forall config_command (map encode_cmd gs)
  /\ forall m, In m (added (map encode_cmd gs)) -> exists n c F s, m = str n /\ asked C sel n /\ enabled C n c F s.
Proof.
  intros WN GD RC. destruct (config_stream C sel gs WN RC) as (settings & l & s & Hg & Hset & JC & ND & Or & En).
  assert (GJ : forall n c, In c s -> Stream_Spec.about c = Some n -> (shape n c \/ (exists b, c = CAdd n b) \/ c = CStart n) /\ exists j F sj, asked C sel n /\ enabled C n j F sj).
  { intros n c Ic Ab. destruct (commands_about C l s n JC ND c Ic Ab) as (j & sj & Il & Hn & Cj). destruct (Or j Il) as (n' & A & E' & [[Rj Ej]|[x K]]); [|congruence].
    assert (n' = n) as -> by congruence. clear E'.
    destruct (Stream_Props.C71_exists (cf_env C) (cf_force C) (cf_dump C) n j sj GD Rj Ej Cj) as [F HF].
    destruct (Setup_Proofs.jail_shape (cf_env C) (cf_dump C) j F sj Cj) as (s' & Es & Fs); [apply HF|apply (Stream_Proofs7.jail_read _ _ _ _ Rj Ej)|].
    pose proof (Stream_Props.C73_stream (cf_env C) (cf_dump C) l) as PS. rewrite JC in PS. destruct PS as (_ & _ & PJ). specialize (PJ ND j Il). rewrite Cj, Hn in PJ.
    assert (I : In c (filter (Stream_Spec.about_jail n) s)) by (apply filter_In; split; [exact Ic|now apply about_jail_iff]). rewrite PJ, Es in I. rewrite Hn in *. split; [|exists j, F, sj; now split].
    cbn [app] in I. destruct I as [<-|I]; [right; left; eauto|]. apply in_app_iff in I as [I|[<-|[]]]; [left|right; now right]. rewrite Forall_forall in Fs. now apply Fs. }
  rewrite Hg, map_app, encode_jails. split.
  - apply Forall_app. split.
    + apply Forall_forall. intros c I. rewrite map_map in I. apply in_map_iff in I as ([k v] & <- & I). cbn [fst snd encode_cmd]. do 4 right. exists (str k), (encode_g v). split; [reflexivity|].
      rewrite Forall_forall in Hset. exact (Hset _ I).
    + apply Forall_forall. intros c I. apply in_map_iff in I as (x & <- & I). destruct (Stream_Spec.about x) as [n|] eqn:Ab.
      * destruct (GJ n x I Ab) as [[Sh|[[b ->] | ->]] _]; [now apply (shape_command n)|left; cbn; eauto|right; left; cbn; eauto].
      * destruct x; try discriminate. do 3 right. left. cbn. eauto.
  - intros m I. unfold added in I. rewrite flat_map_app in I. apply in_app_iff in I as [I|I].
    + exfalso. apply in_flat_map in I as (c & I & H). rewrite map_map in I. apply in_map_iff in I as ([k v] & <- & I). exact H.
    + apply in_flat_map in I as (c & I & H). apply in_map_iff in I as (x & <- & I). destruct x as [n b| | | | |]; try contradiction. destruct H as [<-|[]].
      destruct (GJ n _ I eq_refl) as [_ (j & F & sj & K)]. exists n, j, F, sj. split; [reflexivity|exact K].
Qed.
