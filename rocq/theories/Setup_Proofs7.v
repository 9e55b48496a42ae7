(** Proofs about setting up the server, part 7: a configuration that is taken. *)
From Verif Require Import Base Text Options_Model Options_Spec.
From Verif Require Stream_Model Stream_Spec Stream_Proofs Stream_Proofs5 Stream_Proofs7 Stream_Props.
From Verif Require Import Server_Model Server_Spec Server_Proofs Server_Proofs2 Server_Proofs5 Server_Proofs6 Setup_Model Setup_Spec.
From Verif Require Setup_Proofs.
From Verif Require Import Setup_Proofs2 Setup_Proofs3 Setup_Proofs4 Setup_Proofs5 Setup_Proofs6.
Local Open Scope string_scope.
Local Open Scope list_scope.
Import Stream_Model (cmd(..), val(..)).
Import Setup_Proofs (shape(..)).

Section Ok.
Context (w : env) (TA : takes_all w) (DB : db_ok w).
Lemma on_jail_ok n s f ret : jail_of s n <> None -> (forall j, snd (f j) = None) -> exists s' v, on_jail n s f ret = (s', Good v).
Proof. intros H F. unfold on_jail, lookup. unfold jail_of in H. destruct (dget n (s_jails s)) as [j|]; [|contradiction]. specialize (F j). destruct (f j) as [j' e]. cbn in F. subst e. eauto. Qed.
Lemma add_each_ok okv l : (forall x, okv x = true) -> forall r, snd (add_each okv l r) = true.
Proof. intros H. induction l as [|x l IH]; intros r; [reflexivity|]. cbn [add_each]. rewrite H. apply IH. Qed.
Lemma add_regex_ok m n f l s : jail_of s n <> None -> exists s' v, add_regex w m n f l s = (s', Good v).
Proof.
  intros H. unfold add_regex. match goal with |- context [on_jail ?a ?b ?c ?d] => destruct (on_jail_ok a b c d H) as (s' & v & ->) end.
  - intros j. pose proof (add_each_ok (e_regex w) l (ta_regex w TA) (if f then j_fail j else j_ignore j)) as K. destruct (add_each _ _ _) as [x ok]. cbn in *. now rewrite K.
  - destruct m; eauto.
Qed.
Definition fine (c : cmd) : Prop :=
  (forall k, Stream_Spec.key_of c = Some k -> In k Stream_Spec.commands)
  /\ forall f t, In (f, t) (Stream_Spec.told_logs [c]) -> lower (str t) = "tail" \/ lower (str t) = "head".
Lemma step_ok n c s : ~ In (str n) server_settings -> shape n c -> fine c -> jail_of s (str n) <> None -> exists s' v, handler w (encode c) s = (s', Good v).
Proof.
  intros HS Sh [FK FL] HJ.
  assert (OR : forall m k vs, In k ["addjournalmatch"; "addaction"; "action"] -> exists s' v, set_key w m (str n) k vs s = (s', Good v)).
  { intros m k vs I. rewrite set_oracle by exact I. unfold lookup. unfold jail_of in HJ. destruct (dget (str n) (s_jails s)); [|contradiction]. destruct (ta_other w TA (T (str n) :: T k :: vs)) as [v ->]. eauto. }
  destruct Sh as [k x Hk|k r Hk|k l Hk|l|l|p t|l|l|a l]; cbn [encode map py].
  - assert (Hk' : In k one_value).
    { destruct Hk as [Hk|Hk]; [exact Hk|]. destruct (sub_word k Hk) as [K|K]; [exact K|]. specialize (FK k eq_refl).
      assert (Q : forallb (fun k => inb k one_value || negb (wrong_word (str k))) Stream_Spec.commands = true) by (vm_compute; reflexivity). rewrite forallb_forall in Q. specialize (Q k FK). rewrite K, orb_false_r in Q. now apply inb_In. }
    rewrite handler_set by exact HS. rewrite set_value_word by now apply one_value_word. pose proof (ta_value w TA (str k) (py x)) as V. destruct (e_value w (str k) (py x)); [|contradiction]. apply on_jail_ok; [exact HJ|reflexivity].
  - rewrite handler_set by exact HS. destruct Hk as [-> | ->]; rewrite ?set_fail, ?set_ignore; now apply add_regex_ok.
  - rewrite handler_mset by exact HS. assert (TM : Server_Model.texts (map (fun t => T (str t)) l) = Some (map str l)) by (rewrite <- (map_map str T); apply texts_map).
    destruct Hk as [-> | ->]; rewrite ?mset_fail, ?mset_ignore, TM; now apply add_regex_ok.
  - rewrite handler_set by exact HS. rewrite map_Tpy. change (set_key w false (str n) (str (tx "addignoreip")) (map T (map str l)) s) with
      (match Server_Model.texts (map T (map str l)) with
       | None => (s, Bad EType)
       | Some l => if (match l with [] => true | _ => false end) && s_quiet s then (s, Good Server_Model.VNone)
                else on_jail (str n) s (fun j => let '(x, ok) := add_each (e_ip w) l (j_ips j) in (with_ips x j, if ok then None else Some EValue)) (fun j => VLst (j_ips j))
       end). rewrite texts_map. destruct (_ && s_quiet s); [eauto|]. apply on_jail_ok; [exact HJ|]. intros j. pose proof (add_each_ok (e_ip w) (map str l) (ta_ip w TA) (j_ips j)) as K. destruct (add_each _ _ _) as [x ok]. cbn in *. now rewrite K.
  - rewrite handler_set by exact HS. apply OR. now left.
  - rewrite handler_set by exact HS. change (set_key w false (str n) (str (tx "addlogpath")) [T (str p); T (str t)] s) with
      (if eqb (lower (str t)) "tail" || eqb (lower (str t)) "head" then on_jail (str n) s (fun j => (add_log (str p) j, None)) (fun j => VLst (j_logs j)) else (s, Bad EValue)).
    destruct (FL p t) as [-> | ->]; [now left| |]; rewrite eqb_refl, ?orb_true_r; cbn [orb]; apply on_jail_ok; auto.
  - rewrite handler_set by exact HS. apply OR. right. now left.
  - rewrite handler_set by exact HS. apply OR. do 2 right. now left.
  - rewrite handler_mset by exact HS. apply OR. do 2 right. now left.
Qed.
Lemma add_ok n b s : s_reload s = [] -> n <> "--all" -> jail_of s n = None -> exists s' v, handler w (A [T "add"; T n; T b]) s = (s', Good v).
Proof.
  intros R N J. change (handler w (A [T "add"; T n; T b]) s) with (if eqb n all_jails then (s, Bad EReserved) else done (add_jail w n b s) (VTxt n)).
  destruct (eqb_spec n all_jails) as [|_]; [contradiction|]. unfold add_jail. rewrite R. cbn [dget]. unfold jails_add, dmem. unfold jail_of in J. rewrite J. rewrite (ta_make w TA). unfold db_add.
  destruct (DB n) as [-> _]. destruct (s_db _); cbn [done]; eauto.
Qed.

(** The commands of a list are in order: every jail is added once, before its settings. *)
Definition ordered (m : list cmd) : Prop := forall a c b n, m = a ++ c :: b -> Stream_Spec.about c = Some n ->
  (exists x, c = CAdd n x) /\ Forall (fun c => Stream_Spec.about c <> Some n) a \/ shape n c /\ fine c /\ exists x, In (CAdd n x) a.
Lemma run_ok m : ordered m -> Forall not_all m -> (forall c n, In c m -> Stream_Spec.about c = Some n -> ~ In (str n) server_settings) ->
  forall s, s_reload s = [] -> s_jails s = [] -> all_new s -> Forall (fun c => Stream_Spec.is_start c = false) m ->
  exists s', stream w (map encode m) s = (s', None) /\ (forall n x, In (CAdd n x) m -> jail_of s' (str n) <> None) /\ (forall n, Forall (fun c => Stream_Spec.about c <> Some n) m -> jail_of s' (str n) = None).
Proof.
  induction m as [|c m IH] using rev_ind; intros O NA SS s R J NW NS.
  - exists s. split; [reflexivity|]. split; [intros n x []|]. intros n _. unfold jail_of. now rewrite J.
  - apply Forall_app in NA as [NA NAc]. apply Forall_app in NS as [NS NSc]. apply Forall_inv in NAc, NSc.
    destruct IH with (s := s) as (s1 & E1 & K1 & K2); auto.
    { intros a c' b n -> Ab. apply (O a c' (b ++ [c]) n); [now rewrite <- app_assoc|exact Ab]. }
    { intros c' n I. apply SS. apply in_app_iff. now left. }
    pose proof (run_reload w m s s1 None R E1) as R1. destruct (stream_state w m NS s s1 None R NW E1) as [NW1 _].
    assert (G : exists s2 v, handler w (encode c) s1 = (s2, Good v) /\ (forall n x, c = CAdd n x -> jail_of s2 (str n) <> None)).
    { destruct (Stream_Spec.about c) as [n|] eqn:Ab.
      - destruct (O m c [] n eq_refl Ab) as [[[x ->] Fa]|(Sh & Fi & x & I)].
        + destruct (add_ok (str n) (py x) s1 R1) as (s2 & v & E); [|now apply K2|].
          * intros E. apply NAc. cbn. f_equal. now apply str_inj.
          * exists s2, v. split; [exact E|]. intros n' x' [= <- <-]. destruct (add_new w _ _ _ _ _ E R1) as (_ & no & ->). discriminate.
        + destruct (step_ok n c s1) as (s2 & v & E); auto; [apply (SS c n); [apply in_app_iff; right; now left|exact Ab]|now apply (K1 n x)|]. exists s2, v. split; [exact E|]. intros n' x' ->. inversion Sh.
      - destruct c as [| | | | |why]; try discriminate. cbn [encode]. destruct (ta_other w TA [T "config-error"; T (str why)]) as [v Hv]. exists s1, v. split; [|discriminate].
        change (handler w (A [T "config-error"; T (str why)]) s1) with (s1, e_other w [T "config-error"; T (str why)]). now rewrite Hv. }
    destruct G as (s2 & v & E2 & K3). exists s2. split.
    + rewrite map_app, stream_app, E1. cbn [map]. rewrite stream_cons, E2. reflexivity.
    + destruct (cmd_state w c s1 NSc R1 NW1) as [_ K4]. rewrite E2 in K4. cbn [fst] in K4. split.
      * intros n x I. apply in_app_iff in I as [I|[I|[]]]; [apply K4; now apply (K1 n x)|now apply (K3 n x)].
      * intros n F. apply Forall_app in F as [F Fc]. apply Forall_inv in Fc. destruct (other_cmd w n c s1 Fc NAc) as [Ot _]. rewrite E2 in Ot. cbn [fst] in Ot. rewrite Ot. now apply K2.
Qed.
End Ok.

Lemma settings_ok w l : takes_all w -> Forall (fun kv => In (str (fst kv)) server_settings) l -> forall s, stream w (map encode_cmd (map (fun kv : text * gval => GSet (fst kv) (snd kv)) l)) s = (s, None).
Proof.
  intros TA. induction 1 as [|[k v] l I F IH]; intros s; [reflexivity|]. cbn [map fst snd encode_cmd] in *. rewrite stream_cons.
  change (handler w (A [T "set"; T (str k); encode_g v]) s) with (command_set w false [T (str k); encode_g v] s). unfold command_set. apply inb_In in I. rewrite I.
  destruct (ta_other w TA [T (str k); encode_g v]) as [x ->]. apply IH.
Qed.
Lemma told_logs_In s c f t : In c s -> In (f, t) (Stream_Spec.told_logs [c]) -> In (f, t) (Stream_Spec.told_logs s).
Proof.
  unfold Stream_Spec.told_logs. assert (G : forall (g : cmd -> list (text * text)) x, In c s -> In x (Stream_Spec.flat g [c]) -> In x (Stream_Spec.flat g s)).
  { intros g x I H. unfold Stream_Spec.flat in *. cbn [map concat] in H. rewrite app_nil_r in H. apply in_concat. exists (g c). split; [now apply in_map|exact H]. }
  apply G.
Qed.
Theorem accepted C sel w gs S0 : well_named C -> Stream_Spec.gives_dicts (cf_env C) -> words_known C -> takes_all w -> threads_ok w -> db_ok w -> read_config C sel = Some gs ->
  s_reload S0 = [] -> s_jails S0 = [] -> exists S1, stream w (map encode_cmd gs) S0 = (S1, None).
Proof.
  intros WN GD WK TA TO DB RC R0 J0. destruct (config_stream C sel gs WN RC) as (settings & l & s & Hg & Hset & JC & ND & Or & En).
  rewrite Hg, map_app, stream_app, (settings_ok w settings TA Hset S0), encode_jails.
  assert (N0 : all_new S0) by (intros n J HJ; unfold jail_of in HJ; rewrite J0 in HJ; discriminate).
  pose proof (Stream_Props.C73_stream (cf_env C) (cf_dump C) l) as PS. rewrite JC in PS. destruct PS as (_ & (parts & starts & Es & F2 & NS & St & _) & PJ). specialize (PJ ND).
  assert (GJ : forall j sj, In j l -> Stream_Model.jail_convert (cf_env C) (cf_dump C) j = Stream_Model.COk sj false -> exists F, enabled C (Stream_Model.j_name j) j F sj
     /\ exists s', sj = CAdd (Stream_Model.j_name j) (Stream_Proofs.backend_of (Stream_Model.j_opts j)) :: s' /\ Forall (shape (Stream_Model.j_name j)) s').
  { intros j sj Il Cj. destruct (Or j Il) as (n & A & <- & [[Rj Ej]|[x K]]); [|congruence]. destruct (Stream_Props.C71_exists (cf_env C) (cf_force C) (cf_dump C) (Stream_Model.j_name j) j sj GD Rj Ej Cj) as [F HF].
    exists F. split; [exact HF|]. apply (Setup_Proofs.jail_shape (cf_env C) (cf_dump C) j F sj Cj); [apply HF|apply (Stream_Proofs7.jail_read _ _ _ _ Rj Ej)]. }
  assert (GC : forall c n, In c s -> Stream_Spec.about c = Some n -> exists j F sj, enabled C n j F sj /\ In j l /\ Stream_Model.j_name j = n /\ Stream_Model.jail_convert (cf_env C) (cf_dump C) j = Stream_Model.COk sj false).
  { intros c n Ic Ab. destruct (commands_about C l s n JC ND c Ic Ab) as (j & sj & Il & <- & Cj). destruct (GJ j sj Il Cj) as (F & E & _). exists j, F, sj. auto. }
  assert (Inc : forall c, In c (concat parts) -> In c s) by (intros c I; rewrite Es; apply in_app_iff; now left).
  assert (NA : Forall not_all (concat parts)).
  { apply Forall_forall. intros c I Ab. destruct (GC c _ (Inc c I) Ab) as (j & F & sj & E & _). destruct (WK _ _ _ _ E) as [K _]. apply K. reflexivity. }
  assert (O : ordered (concat parts)).
  { intros a c b n Ep Ab. assert (Ic : In c (concat parts)) by (rewrite Ep; apply in_app_iff; right; now left). destruct (GC c n (Inc c Ic) Ab) as (j & F & sj & E & Il & Hn & Cj).
    destruct (GJ j sj Il Cj) as (F' & _ & s' & Hsj & Fs). specialize (PJ j Il). rewrite Cj, Hn, Es, filter_app in PJ. rewrite Hn in *.
    assert (FP : filter (Stream_Spec.about_jail n) (concat parts) = sj).
    { assert (Q : exists k, filter (Stream_Spec.about_jail n) (map CStart starts) = repeat (CStart n) k).
      { clear. induction starts as [|m r [k IH]]; [now exists O|]. cbn [map filter]. destruct (Stream_Spec.about_jail n (CStart m)) eqn:A; [|now exists k]. apply about_jail_iff in A. injection A as ->. exists (S k). cbn. now rewrite IH. }
      destruct Q as [k Q]. rewrite Q in PJ.
      assert (NSf : Forall (fun c => Stream_Spec.is_start c = false) (filter (Stream_Spec.about_jail n) (concat parts))) by (apply Forall_forall; intros x I; apply filter_In in I as [I _]; rewrite Forall_forall in NS; auto).
      assert (NSs : Forall (fun c => Stream_Spec.is_start c = false) sj). { rewrite Hsj. constructor; [reflexivity|]. eapply Forall_impl; [|exact Fs]. intros x Sx. now destruct Sx. }
      clear - PJ NSf NSs. revert sj PJ NSs. induction (filter (Stream_Spec.about_jail n) (concat parts)) as [|x r IH]; intros sj PJ NSs.
      - destruct sj as [|y sj]; [reflexivity|]. apply Forall_inv in NSs. destruct k; [discriminate|]. injection PJ as <- _. discriminate.
      - apply Forall_cons_iff in NSf as [Nx NSf]. destruct sj as [|y sj]; [cbn in PJ; injection PJ as -> _; discriminate|]. cbn [app] in PJ. injection PJ as -> PJ. f_equal. apply IH; auto. now apply Forall_inv_tail in NSs. }
    rewrite Ep, filter_app in FP. cbn [filter] in FP. assert (A' : Stream_Spec.about_jail n c = true) by now apply about_jail_iff. rewrite A' in FP.
    destruct (filter (Stream_Spec.about_jail n) a) as [|y ys] eqn:Fa.
    - cbn [app] in FP. rewrite Hsj in FP. injection FP as -> _. left. split; [eauto|]. now apply filter_none_about.
    - right. rewrite Hsj in FP. cbn [app] in FP. injection FP as -> FP. assert (Ic' : In c s') by (rewrite <- FP; apply in_app_iff; right; now left). rewrite Forall_forall in Fs. split; [now apply Fs|]. split.
      + destruct (WK _ _ _ _ E) as (_ & K1 & K2). assert (Isj : In c sj) by (rewrite Hsj; now right). split; [intros k; now apply K1|]. intros f t I. apply (K2 f t). now apply (told_logs_In sj c).
      + exists (Stream_Proofs.backend_of (Stream_Model.j_opts j)). assert (K : In (CAdd n (Stream_Proofs.backend_of (Stream_Model.j_opts j))) (filter (Stream_Spec.about_jail n) a)) by (rewrite Fa; now left). now apply filter_In in K. }
  destruct (run_ok w TA DB (concat parts) O NA) with (s := S0) as (S2 & E2 & K1 & _); auto.
  { intros c n I Ab. destruct (GC c n (Inc c I) Ab) as (j & F & sj & E & _). exact (wn_jails C WN n j F sj E). }
  rewrite Es, map_app, stream_app, E2. destruct (stream_state w (concat parts) NS S0 S2 None R0 N0 E2) as [N2 _]. apply starts_ok; [exact TO| |].
  - rewrite St. clear - ND. induction l as [|j l IH]; [constructor|]. cbn [map] in ND. apply NoDup_cons_iff in ND as [N ND]. cbn [filter]. destruct (Stream_Model.jail_convert _ _ j) as [|sj [|]]; auto.
    cbn [map]. constructor; [|now apply IH]. intros I. apply N. apply in_map_iff in I as (j' & E' & I). apply filter_In in I as [I _]. apply in_map_iff. now exists j'.
  - intros n In_. rewrite St in In_. apply in_map_iff in In_ as (j & <- & Ij). apply filter_In in Ij as [Il Hj]. destruct (Stream_Model.jail_convert _ _ j) as [|sj [|]] eqn:Cj; try discriminate.
    destruct (GJ j sj Il Cj) as (F & _ & s' & Hsj & _).
    assert (Ip : In (CAdd (Stream_Model.j_name j) (Stream_Proofs.backend_of (Stream_Model.j_opts j))) (concat parts)).
    { apply in_concat. exists sj. split; [|rewrite Hsj; now left]. clear - F2 Il Cj. induction F2 as [|j' p l parts [e H] F2 IH]; [contradiction|]. destruct Il as [->|Il]; [left; congruence|right; auto]. }
    specialize (K1 _ _ Ip). destruct (jail_of S2 (str (Stream_Model.j_name j))) as [J|] eqn:HJ; [|contradiction]. exists J. split; [reflexivity|]. now apply (N2 _ J HJ).
Qed.
