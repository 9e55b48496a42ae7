(** Proofs about setting up the server, part 5: a configuration on a new server. *)
From Verif Require Import Base Text Options_Model Options_Spec.
From Verif Require Stream_Model Stream_Spec Stream_Proofs Stream_Proofs4 Stream_Proofs2 Stream_Proofs3 Stream_Proofs5 Stream_Proofs6 Stream_Proofs7 Stream_Proofs8 Stream_Props.
From Verif Require Import Server_Model Server_Spec Server_Proofs Server_Proofs2 Server_Proofs5 Server_Proofs6 Setup_Model Setup_Spec.
From Verif Require Setup_Proofs.
From Verif Require Import Setup_Proofs2 Setup_Proofs3 Setup_Proofs4.
Local Open Scope string_scope.
Local Open Scope list_scope.
Import Stream_Model (cmd(..), val(..)).
Import Setup_Proofs (shape(..)).

(** ** Reading *)
Lemma read_config_parts C sel gs : dwf (cf_opts C) -> read_config C sel = Some gs ->
  exists M secs l s, cf_main C = Some M /\ cf_sections C = Some secs
    /\ Stream_Model.jails_get_options (cf_env C) (cf_force C) (negb (cf_clean C)) (match sel with None => secs | Some n => [n] end) = Some (l, true)
    /\ Stream_Model.jails_convert (cf_env C) (cf_dump C) l = Some s
    /\ gs = map (fun kv => GSet (fst kv) (snd kv)) (server_settings_of C M) ++ map GJail s.
Proof.
  intros W. unfold read_config. destruct (cf_main C) as [M|]; [|discriminate]. destruct (cf_sections C) as [secs|]; [|discriminate].
  destruct (main_get _ M _) as [o|] eqn:MG; [|discriminate]. destruct (Stream_Model.jails_get_options _ _ _ _) as [[l ok]|] eqn:JG; [|discriminate].
  destruct (Stream_Model.jails_convert _ _ l) as [s|] eqn:JC; [|discriminate]. destruct ok; [|discriminate]. intros [= <-]. exists M, secs, l, s.
  rewrite (main_stream C M o W MG). auto.
Qed.
Lemma read_as_origin E force secs l : Stream_Spec.read_as E force secs l -> forall j, In j l ->
  exists sec, In sec secs /\ sec <> tx "INCLUDES" /\ Stream_Model.j_name j = sec /\
    (Stream_Model.jail_get_options E force sec = Stream_Model.JOk j /\ Stream_Model.is_enabled force (Stream_Model.j_opts j) = true
     \/ Stream_Model.jail_get_options E force sec = Stream_Model.JBad j).
Proof.
  induction 1 as [|secs l H IH|sec j secs l N R En H IH|sec j secs l N R En H IH|sec j secs l N R H IH]; intros j0 I.
  - contradiction.
  - destruct (IH j0 I) as (x & Ix & Nx). exists x. split; [now right|exact Nx].
  - destruct (IH j0 I) as (x & Ix & Nx). exists x. split; [now right|exact Nx].
  - destruct I as [<-|I]; [|destruct (IH j0 I) as (x & Ix & Nx); exists x; split; [now right|exact Nx]].
    exists sec. split; [now left|]. split; [exact N|]. split; [now apply (Stream_Proofs7.jail_read E force sec j R En)|auto].
  - destruct I as [<-|I]; [|destruct (IH j0 I) as (x & Ix & Nx); exists x; split; [now right|exact Nx]].
    exists sec. split; [now left|]. split; [exact N|]. split; [now apply (Stream_Props.C73_wrong E force false sec j R)|auto].
Qed.
Lemma read_as_nodup E force secs l : Stream_Spec.read_as E force secs l -> NoDup secs -> NoDup (map Stream_Model.j_name l).
Proof.
  induction 1 as [|secs l H IH|sec j secs l N R En H IH|sec j secs l N R En H IH|sec j secs l N R H IH]; intros ND; try (apply NoDup_cons_iff in ND as [Ns ND]); auto using NoDup_nil.
  - cbn [map]. constructor; [|now apply IH]. intros I. apply in_map_iff in I as (j' & E1 & I). destruct (read_as_origin _ _ _ _ H j' I) as (x & Ix & _ & Hx & _).
    assert (Stream_Model.j_name j = sec) by now apply (Stream_Proofs7.jail_read E force sec j R En). congruence.
  - cbn [map]. constructor; [|now apply IH]. intros I. apply in_map_iff in I as (j' & E1 & I). destruct (read_as_origin _ _ _ _ H j' I) as (x & Ix & _ & Hx & _).
    assert (Stream_Model.j_name j = sec) by now apply (Stream_Props.C73_wrong E force false sec j R). congruence.
Qed.
Lemma read_as_enabled E force secs l : Stream_Spec.read_as E force secs l -> forall n j, In n secs -> n <> tx "INCLUDES" ->
  Stream_Model.jail_get_options E force n = Stream_Model.JOk j -> Stream_Model.is_enabled force (Stream_Model.j_opts j) = true -> In j l.
Proof.
  induction 1 as [|secs l H IH|sec j secs l N R En H IH|sec j secs l N R En H IH|sec j secs l N R H IH]; intros n c I NI Rn Ec.
  - contradiction.
  - destruct I as [<-|I]; [contradiction|]. eauto.
  - destruct I as [<-|I]; [congruence|]. eauto.
  - destruct I as [<-|I]; [left; congruence|]. right. eauto.
  - destruct I as [<-|I]; [congruence|]. right. eauto.
Qed.

(** ** The whole stream *)
Lemma settings_stream w (l : list (text * gval)) : Forall (fun kv => In (str (fst kv)) server_settings) l -> forall s,
  fst (stream w (map encode_cmd (map (fun kv => GSet (fst kv) (snd kv)) l)) s) = s.
Proof.
  induction 1 as [|[k v] l I F IH]; intros s; [reflexivity|]. cbn [map fst snd encode_cmd] in *. rewrite stream_cons.
  change (handler w (A [T "set"; T (str k); encode_g v]) s) with (command_set w false [T (str k); encode_g v] s). unfold command_set. apply inb_In in I. rewrite I.
  destruct (e_other w _); [apply IH|reflexivity].
Qed.
Lemma encode_jails s : map encode_cmd (map GJail s) = map encode s.
Proof. rewrite map_map. reflexivity. Qed.

Section Whole.
Context (C : config) (sel : option text) (w : env) (gs : list gcmd).
Context (WN : well_named C) (GD : Stream_Spec.gives_dicts (cf_env C)) (RC : read_config C sel = Some gs).

(** What the commands about jails are. *)
Lemma config_stream : exists settings l s, gs = map (fun kv => GSet (fst kv) (snd kv)) settings ++ map GJail s
  /\ Forall (fun kv => In (str (fst kv)) server_settings) settings
  /\ Stream_Model.jails_convert (cf_env C) (cf_dump C) l = Some s /\ NoDup (map Stream_Model.j_name l)
  /\ (forall j, In j l -> exists n, asked C sel n /\ Stream_Model.j_name j = n /\
       (Stream_Model.jail_get_options (cf_env C) (cf_force C) n = Stream_Model.JOk j /\ Stream_Model.is_enabled (cf_force C) (Stream_Model.j_opts j) = true
        \/ exists e, Stream_Model.jail_convert (cf_env C) (cf_dump C) j = Stream_Model.COk [CError e] true))
  /\ (forall n c F sj, asked C sel n -> enabled C n c F sj -> In c l /\ Stream_Model.j_name c = n).
Proof.
  destruct (read_config_parts C sel gs (wn_opts C WN) RC) as (M & secs & l & s & HM & Hs & JG & JC & Hg).
  pose proof (Stream_Props.C73_read (cf_env C) (cf_force C) (negb (cf_clean C)) (match sel with None => secs | Some n => [n] end)) as R. rewrite JG in R. destruct R as [R _].
  assert (ND : NoDup (match sel with None => secs | Some n => [n] end)) by (destruct sel; [repeat constructor; intros []|now apply (wn_sections C WN)]).
  assert (AK : forall n, n <> tx "INCLUDES" -> In n (match sel with None => secs | Some n => [n] end) <-> asked C sel n).
  { intros n N. unfold asked. destruct sel as [m|].
    - split; [intros [<-|[]]; auto|intros [_ ->]; now left].
    - split; [intros I; split; [exact N|]; now exists secs|]. intros (_ & secs' & E & I). congruence. }
  exists (server_settings_of C M), l, s. split; [exact Hg|]. split; [apply settings_known|]. split; [exact JC|]. split; [exact (read_as_nodup _ _ _ _ R ND)|]. split.
  - intros j I. destruct (read_as_origin _ _ _ _ R j I) as (n & In_ & N & Hn & K). exists n. split; [now apply AK|]. split; [exact Hn|].
    destruct K as [K|K]; [now left|right]. apply (Stream_Props.C73_wrong _ _ (cf_dump C) _ _ K).
  - intros n c F sj A (Rn & En & _). split; [|now apply (Stream_Proofs7.jail_read _ _ _ _ Rn En)]. apply (read_as_enabled _ _ _ _ R n); auto; [apply AK; [apply A|exact A]|apply A].
Qed.

(** A command is about a jail only if this is enabled. *)
Lemma commands_about l s n : Stream_Model.jails_convert (cf_env C) (cf_dump C) l = Some s -> NoDup (map Stream_Model.j_name l) ->
  forall c, In c s -> Stream_Spec.about c = Some n -> exists j sj, In j l /\ Stream_Model.j_name j = n /\ Stream_Model.jail_convert (cf_env C) (cf_dump C) j = Stream_Model.COk sj false.
Proof.
  intros JC ND c I Ab. pose proof (Stream_Props.C73_stream (cf_env C) (cf_dump C) l) as S. rewrite JC in S. destruct S as (_ & (parts & starts & Es & F2 & _ & St & _) & PJ).
  rewrite Es in I. apply in_app_iff in I as [I|I].
  - apply in_concat in I as (sj & Ij & Ic). assert (K : exists j, In j l /\ exists e, Stream_Model.jail_convert (cf_env C) (cf_dump C) j = Stream_Model.COk sj e).
    { clear - F2 Ij. induction F2 as [|j p l parts H F2 IH]; [contradiction|]. destruct Ij as [->|Ij]; [exists j; split; [now left|exact H]|]. destruct (IH Ij) as (j' & I' & H'). exists j'. split; [now right|exact H']. }
    destruct K as (j & Il & e & Hj). specialize (PJ ND j Il). rewrite Hj in PJ. destruct e.
    + destruct PJ as [(e & -> & _) _]. destruct Ic as [<-|[]]. discriminate.
    + exists j, sj. split; [exact Il|]. split; [|exact Hj]. pose proof (Stream_Proofs5.convert_about _ _ _ _ Hj) as Fa. rewrite Forall_forall in Fa. specialize (Fa c Ic). congruence.
  - apply in_map_iff in I as (m & <- & I). cbn in Ab. injection Ab as ->. rewrite St in I. apply in_map_iff in I as (j & Hj & I). apply filter_In in I as [Il Hc].
    destruct (Stream_Model.jail_convert _ _ j) as [|sj [|]] eqn:Cj; try discriminate. exists j, sj. auto.
Qed.

Theorem whole S0 S1 : s_reload S0 = [] -> s_jails S0 = [] -> stream w (map encode_cmd gs) S0 = (S1, None) ->
  (forall n c F s, asked C sel n -> enabled C n c F s ->
     exists J, jail_of S1 (str n) = Some J /\ running J /\ j_idle J = false /\ j_bans J = [] /\ NoDup (j_logs J) /\ set_up (cf_env C) w c F J)
  /\ (forall m, In m (names S1) -> exists n c F s, m = str n /\ asked C sel n /\ enabled C n c F s).
Proof.
  intros R0 J0 H. destruct config_stream as (settings & l & s & Hg & Hset & JC & ND & Or & En). rewrite Hg, map_app, stream_app in H.
  pose proof (settings_stream w settings Hset S0) as HS0. destruct (stream w (map encode_cmd (map _ settings)) S0) as [Sx [e|]]; [discriminate|]. cbn [fst] in HS0. subst Sx. rewrite encode_jails in H.
  pose proof (Stream_Props.C73_stream (cf_env C) (cf_dump C) l) as PS. rewrite JC in PS. destruct PS as (_ & _ & PJ). specialize (PJ ND).
  assert (GJ : forall j sj, In j l -> Stream_Model.jail_convert (cf_env C) (cf_dump C) j = Stream_Model.COk sj false -> exists F, asked C sel (Stream_Model.j_name j) /\ enabled C (Stream_Model.j_name j) j F sj).
  { intros j sj Il Cj. destruct (Or j Il) as (n & A & <- & [[Rj Ej]|[e K]]); [|congruence].
    destruct (Stream_Props.C71_exists (cf_env C) (cf_force C) (cf_dump C) (Stream_Model.j_name j) j sj GD Rj Ej Cj) as [F HF]. exists F. split; [exact A|exact HF]. }
  assert (Sh : forall n c F sj, enabled C n c F sj -> Stream_Model.j_name c = n -> exists s', sj = CAdd n (Stream_Proofs.backend_of (Stream_Model.j_opts c)) :: s' /\ Forall (shape n) s').
  { intros n c F sj (Rn & Ec & Cj & HF) <-. apply (Setup_Proofs.jail_shape (cf_env C) (cf_dump C) c F sj Cj HF). apply (Stream_Proofs7.jail_read _ _ _ _ Rn Ec). }
  assert (NA : Forall not_all s).
  { apply Forall_forall. intros c Ic Ab. destruct (commands_about l s (tx "--all") JC ND c Ic Ab) as (j & sj & Il & Hn & Cj).
    destruct (GJ j sj Il Cj) as (F & A & Ej). destruct (Sh _ _ _ _ Ej eq_refl) as (s' & -> & _). specialize (PJ j Il). rewrite Cj in PJ.
    assert (I : In (CAdd (Stream_Model.j_name j) (Stream_Proofs.backend_of (Stream_Model.j_opts j))) s).
    { assert (K : In (CAdd (Stream_Model.j_name j) (Stream_Proofs.backend_of (Stream_Model.j_opts j))) (filter (Stream_Spec.about_jail (Stream_Model.j_name j)) s)) by (rewrite PJ; now left). now apply filter_In in K. }
    apply in_split in I as (a & b & Es). rewrite Es, map_app, stream_app in H. destruct (stream w (map encode a) S0) as [Sa [x|]] eqn:Ea; [discriminate|]. cbn [map] in H. rewrite stream_cons in H.
    pose proof (run_reload w a S0 Sa None R0 Ea) as Ra. destruct (handler w (encode (CAdd _ _)) Sa) as [Sb [v|x]] eqn:Eb; [|discriminate]. cbn [encode] in Eb.
    apply add_new in Eb as [Nn _]; [|exact Ra]. apply Nn. rewrite Hn. reflexivity. }
  split.
  - intros n c F sj A Ec. destruct (En n c F sj A Ec) as [Il Hn]. destruct (Sh n c F sj Ec Hn) as (s' & Hs' & Fs). specialize (PJ c Il). destruct Ec as (Rn & Ee & Cc & HF) eqn:Q. rewrite Cc, Hn, Hs' in PJ.
    destruct (jail_result w s n (Stream_Proofs.backend_of (Stream_Model.j_opts c)) s' (wn_jails C WN n c F sj Ec) NA PJ Fs S0 S1 R0 H) as (no & J & Ef & HJ).
    destruct (eff_set_up (cf_env C) (cf_force C) (cf_dump C) n c F sj s' w no J Ec Hs' Ef) as [SU NL]. exists (with_threads TRun TRun J). split; [exact HJ|]. split; [split; reflexivity|].
    split; [cbn [j_idle with_threads]; rewrite (ef_idle _ _ _ _ Ef); reflexivity|]. split; [cbn [j_bans with_threads]; rewrite (ef_bans _ _ _ _ Ef); reflexivity|]. split; [exact NL|exact SU].
  - intros m Im. assert (Em : m = str (list_ascii_of_string m)) by (unfold str; symmetry; apply string_of_list_ascii_of_string). set (n := list_ascii_of_string m) in *.
    destruct (existsb (Stream_Spec.about_jail n) s) eqn:X.
    + apply existsb_exists in X as (c & Ic & Ac). apply about_jail_iff in Ac. destruct (commands_about l s n JC ND c Ic Ac) as (j & sj & Il & Hn & Cj).
      destruct (GJ j sj Il Cj) as (F & A & Ej). rewrite Hn in A, Ej. exists n, j, F, sj. auto.
    + exfalso. assert (K : jail_of S1 (str n) = jail_of S0 (str n)).
      { apply (run_others w n s S0 S1 None); auto. apply filter_none_about. clear - X. induction s as [|c s IH]; [reflexivity|]. cbn in *. apply orb_false_iff in X as [-> X]. now apply IH. }
      unfold jail_of in K. rewrite J0 in K. cbn [dget] in K. apply dget_None in K. apply K. rewrite <- Em. exact Im.
Qed.
End Whole.
