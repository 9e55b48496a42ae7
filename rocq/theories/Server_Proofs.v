(** Proofs about the server, part 1: induction over commands, preservation, invariants. *)
From Verif Require Import Base Server_Model Server_Spec.
Open Scope string_scope.
Open Scope list_scope.
Open Scope Z_scope.

Lemma arg_ind' (P : arg -> Prop) :
  (forall t, P (T t)) -> (forall l, Forall P l -> P (A l)) -> forall c, P c.
Proof.
  intros HT HA. fix IH 1. intros [t|l]; [apply HT|]. apply HA.
  induction l as [|a l IHl]; constructor; [apply IH | exact IHl].
Qed.

Lemma stream_nil w s : stream w [] s = (s, None).
Proof. reflexivity. Qed.
Lemma stream_cons w c r s : stream w (c :: r) s =
  match handler w c s with (s', Good _) => stream w r s' | (s', Bad e) => (s', Some e) end.
Proof. reflexivity. Qed.

Lemma stream_app w a b s : stream w (a ++ b) s =
  match stream w a s with (s', None) => stream w b s' | (s', Some e) => (s', Some e) end.
Proof.
  revert s. induction a as [|c a IH]; intros s; [reflexivity|].
  cbn [app]. rewrite !stream_cons. destruct (handler w c s) as [s' [v|e]]; auto.
Qed.

(** ** Preservation *)
Section Preserve.
  Variable w : env.
  Variable P : srv -> Prop.
  Hypothesis HQ : forall q s, P s -> P (set_quiet q s).
  Hypothesis HR : forall s, P s -> P (set_reload [] s).
  Hypothesis HD : forall n st jn s, P s -> P (fst (del_jail w n st jn s)).
  Hypothesis HAd : forall n b s, P s -> P (fst (add_jail w n b s)).
  Hypothesis HSt : forall n s, P s -> P (fst (start_jail w n s)).
  Hypothesis HSe : forall m args s, P s -> P (fst (command_set w m args s)).
  Hypothesis HU : forall n ips b s, P s -> P (fst (set_unban w n ips b s)).
  Hypothesis HB : forall n s, P s -> P (fst (begin_one w n s)).
  Hypothesis HC : forall n s, P s -> P (fst (commit_one w n s)).

  Lemma each_pres f l : (forall n s, P s -> P (fst (f n s))) -> forall s, P s -> P (fst (each f l s)).
  Proof.
    intros Hf. induction l as [|n l IH]; intros s H; [exact H|]. cbn [each].
    specialize (Hf n s H). destruct (f n s) as [s' [e|]]; [exact Hf|]. apply IH, Hf.
  Qed.

  Lemma stop_all_pres s : P s -> P (fst (stop_all w s)).
  Proof.
    intros H. unfold stop_all.
    pose proof (each_pres (fun n => del_jail w n true false) (dkeys (s_jails s)) (fun n s => HD n true false s) s H) as H1.
    destruct (each _ _ s) as [s1 [e|]]; [exact H1|].
    apply each_pres; auto.
  Qed.

  Lemma reload_begin_pres n o s : P s -> P (fst (reload_begin w n o s)).
  Proof.
    intros H. unfold reload_begin. destruct n as [n|l]; [|exact H].
    destruct (_ && _); [exact H|].
    match goal with |- context [let '(_, _) := ?x in _] => assert (H1 : P (fst x)) end.
    { destruct (negb (eqb n all_jails)).
      - destruct (lookup s n) as [j|]; [|destruct (opt_in _ o); exact H].
        assert (H1 : P (fst (if opt_in "--unban" o then set_unban w (Some n) None true s else (s, Good VNone))))
          by (destruct (opt_in _ o); [apply HU|]; exact H).
        destruct (if opt_in "--unban" o then _ else _) as [s' [v|e]]; [|exact H1].
        destruct (opt_in "--restart" o); [apply HD|]; exact H1.
      - assert (H1 : P (fst (if opt_in "--unban" o then set_unban w None None true s else (s, Good VNone))))
          by (destruct (opt_in _ o); [apply HU|]; exact H).
        destruct (if opt_in "--unban" o then _ else _) as [s' [v|e]]; [|exact H1].
        destruct (opt_in "--restart" o); [apply stop_all_pres|]; exact H1. }
    match goal with |- context [let '(_, _) := ?x in _] => destruct x as [s1 [e|]] end; [exact H1|].
    apply each_pres; auto.
  Qed.

  Lemma reload_end_pres s : P s -> P (fst (reload_end w s)).
  Proof.
    intros H. unfold reload_end.
    match goal with |- context [each (commit_one w) ?l s] =>
      pose proof (each_pres (commit_one w) l HC s H) as H1; destruct (each (commit_one w) l s) as [s1 [e|]] end;
      [exact H1|].
    match goal with |- context [each ?f ?l s1] =>
      pose proof (each_pres f l (fun n s => HD n true true s) s1 H1) as H2; destruct (each f l s1) as [s2 [e|]] end;
      [exact H2|]. apply HR, H2.
  Qed.

  Lemma done_fst p v : fst (done p v) = fst p.
  Proof. destruct p as [s [e|]]; reflexivity. Qed.

  (** A command that is no reload and no stream. *)
  Lemma handler_simple_pres c s : simple c -> P s -> P (fst (handler w c s)).
  Proof.
    intros S H. destruct c as [t|[|[name|x] args]]; [exact H|exact H| |exact H].
    destruct S as [S1 S2]. cbn [handler].
    destruct (eqb name "ping"); [exact H|].
    destruct (eqb name "add").
    { destruct args as [|[n|] r]; [exact H| |exact H].
      destruct (eqb n all_jails); [exact H|].
      destruct r as [|[b|] r]; [rewrite done_fst; auto|rewrite done_fst; auto|exact H]. }
    destruct (eqb name "multi-set"); [auto|].
    destruct (eqb name "set"); [auto|].
    destruct (eqb name "start").
    { destruct args as [|[n|] r]; [exact H| |exact H]. rewrite done_fst; auto. }
    destruct (eqb name "stop").
    { destruct args as [|[n|] r]; [rewrite done_fst; now apply stop_all_pres| |exact H].
      destruct (eqb n all_jails); rewrite done_fst; [now apply stop_all_pres | now apply HD]. }
    destruct (eqb_spec name "reload"); [contradiction|].
    destruct (eqb name "unban" && _).
    { assert (X : P (fst (match texts args with None => (s, Bad EType) | Some l => set_unban w None (Some l) true s end)))
        by (destruct (texts args); [now apply HU | exact H]).
      destruct (match args with [T t] => eqb t all_jails | _ => false end); [now apply HU | exact X]. }
    destruct (eqb name "banned"); [exact H|].
    destruct (eqb name "echo"); [exact H|].
    destruct (eqb name "server-status"); [exact H|].
    destruct (eqb_spec name "server-stream"); [contradiction|].
    destruct (eqb name "get"); [exact H|].
    destruct (_ && _); [exact H|].
    destruct (inb name _); exact H.
  Qed.

  Lemma handler_pres_both : forall c,
    (forall s, P s -> P (fst (handler w c s)))
    /\ match c with A cs => forall s, P s -> P (fst (stream w cs s)) | T _ => True end.
  Proof.
    induction c as [t|l IH] using arg_ind'; [split; auto|].
    split; [|induction l as [|c r IHr]; intros s H; [exact H|];
             inversion IH as [|? ? [I1 _] I2]; subst; rewrite stream_cons;
             specialize (I1 s H); destruct (handler w c s) as [s' [v|e]]; [|exact I1]; apply IHr; auto].
    intros s H. destruct l as [|[name|x] args]; [exact H| |exact H].
    apply Forall_inv_tail in IH.
    destruct (eqb_spec name "reload") as [->|N1];
      [|destruct (eqb_spec name "server-stream") as [->|N2]; [|now apply handler_simple_pres]].
    { cbn [handler].
      destruct args as [|n [|o rest]]; try (now apply HQ).
      pose proof (reload_begin_pres n o (set_quiet true s) (HQ true s H)) as H1.
      match goal with |- context [eqb "reload" "reload"] => rewrite !eqb_refl end.
      repeat match goal with |- context [eqb "reload" ?x] => change (eqb "reload" x) with false; cbv iota end.
      match goal with |- context [let '(_, _) := ?x in _] => assert (H2 : P (fst x)) end.
      { destruct (reload_begin w n o (set_quiet true s)) as [s1 [e|]]; [exact H1|].
        destruct rest as [|[t|cs] rest]; [exact H1|exact H1|].
        assert (I : In (A cs) (n :: o :: A cs :: rest)) by (cbn; auto).
        rewrite Forall_forall in IH. apply IH in I. apply (proj2 I). exact H1. }
      match goal with |- context [let '(_, _) := ?x in _] => destruct x as [s2 e] end.
      pose proof (reload_end_pres (set_quiet false s2) (HQ false s2 H2)) as H3.
      destruct (reload_end w (set_quiet false s2)) as [s3 [e'|]]; exact H3. }
    { cbn [handler].
      repeat match goal with |- context [eqb "server-stream" ?x] => 
        change (eqb "server-stream" x) with false; cbv iota end.
      cbn [andb].
      repeat match goal with |- context [eqb "server-stream" ?x] => 
        first [change (eqb "server-stream" x) with false | change (eqb "server-stream" x) with true]; cbv iota end.
      destruct args as [|[t|cs] r]; [now apply HQ|now apply HQ|].
      apply Forall_inv in IH. destruct IH as [_ IH]. specialize (IH (set_quiet true s) (HQ true s H)).
      unfold stream in IH.
      destruct (run_stream (handler w) cs (set_quiet true s)) as [s' e]. now apply HQ. }
  Qed.

  Lemma handler_pres c s : P s -> P (fst (handler w c s)).
  Proof. apply handler_pres_both. Qed.
  Lemma stream_pres cs s : P s -> P (fst (stream w cs s)).
  Proof. apply (proj2 (handler_pres_both (A cs))). Qed.
End Preserve.

(** ** Changes to one jail that keep its identity, backend and threads *)
Definition logs_ok (j : jail) : Prop :=
  NoDup (j_logs j) /\ (forall l, j_rlogs j = Some l -> NoDup l)
  /\ (reads_files (j_backend j) = false -> j_logs j = [] /\ j_rlogs j = None) /\ NoDup (j_bans j).

Record tweak (j j' : jail) : Prop := {
  tw_no : j_no j' = j_no j; tw_backend : j_backend j' = j_backend j;
  tw_filter : j_filter j' = j_filter j; tw_actions : j_actions j' = j_actions j;
  tw_rlogs : j_rlogs j' = None <-> j_rlogs j = None;
  tw_logs : logs_ok j -> logs_ok j' }.

Lemma tweak_refl j : tweak j j.
Proof. constructor; tauto. Qed.
Lemma tweak_trans a b c : tweak a b -> tweak b c -> tweak a c.
Proof. intros [] []; constructor; try congruence; tauto. Qed.

Lemma In_remove1 x p l : In x (remove1 p l) -> In x l.
Proof.
  induction l as [|y r IH]; cbn; [tauto|]. destruct (eqb p y); cbn; [tauto|]. intros [E|H]; auto.
Qed.
Lemma NoDup_remove1 p l : NoDup l -> NoDup (remove1 p l).
Proof.
  induction l as [|y r IH]; cbn; intros H; [constructor|]. inversion H; subst.
  destruct (eqb p y); [assumption|]. constructor; [|auto]. intros I. apply In_remove1 in I. contradiction.
Qed.
Lemma In_remove1_iff x p l : NoDup l -> (In x (remove1 p l) <-> In x l /\ x <> p).
Proof.
  induction l as [|y r IH]; cbn; intros H; [tauto|]. inversion H; subst.
  destruct (eqb_spec p y) as [->|N].
  - split; [intros I; split; [auto|intros ->; contradiction]|]. intros [[->|I] Nx]; [congruence|exact I].
  - cbn. rewrite IH by assumption. split.
    + intros [->|[I Nx]]; [split; [auto|congruence]|auto].
    + intros [[->|I] Nx]; auto.
Qed.

Lemma tweak_idle b j : tweak j (with_idle b j).
Proof. constructor; cbn; try tauto; unfold logs_ok; cbn; tauto. Qed.
Lemma tweak_fail l j : tweak j (with_fail l j).
Proof. constructor; cbn; try tauto; unfold logs_ok; cbn; tauto. Qed.
Lemma tweak_ignore l j : tweak j (with_ignore l j).
Proof. constructor; cbn; try tauto; unfold logs_ok; cbn; tauto. Qed.
Lemma tweak_ips l j : tweak j (with_ips l j).
Proof. constructor; cbn; try tauto; unfold logs_ok; cbn; tauto. Qed.
Lemma tweak_opts l j : tweak j (with_opts l j).
Proof. constructor; cbn; try tauto; unfold logs_ok; cbn; tauto. Qed.
Lemma tweak_bans l j : (NoDup (j_bans j) -> NoDup l) -> tweak j (with_bans l j).
Proof. intros H. constructor; cbn; try tauto; unfold logs_ok; cbn; tauto. Qed.

Lemma NoDup_filter_l (f : string -> bool) l : NoDup l -> NoDup (filter f l).
Proof.
  induction l as [|x r IH]; cbn; intros H; [constructor|]. inversion H; subst. destruct (f x); [|auto].
  constructor; [|auto]. intros I. apply filter_In in I. tauto.
Qed.
Lemma NoDup_unban1 w b ip l : NoDup l -> NoDup (fst (unban1 w b ip l)).
Proof.
  intros H. unfold unban1. destruct (inb ip l); [now apply NoDup_remove1|]. cbv zeta.
  destruct (filter _ l); [exact H|]. now apply NoDup_filter_l.
Qed.
Lemma NoDup_unban_list w b ips : forall l c m, NoDup l -> NoDup (fst (unban_list w b ips l c m)).
Proof.
  induction ips as [|ip r IH]; intros l c m H; [exact H|]. cbn [unban_list].
  pose proof (NoDup_unban1 w b ip l H) as H1. destruct (unban1 w b ip l) as [l' [k|]]; apply IH, H1.
Qed.
Lemma NoDup_remove_banned w b ips l : NoDup l -> NoDup (fst (remove_banned w b ips l)).
Proof. destruct ips; cbn; [apply NoDup_unban_list|constructor]. Qed.
Lemma NoDup_ban_list ips : forall l c, NoDup l -> NoDup (fst (ban_list ips l c)).
Proof.
  induction ips as [|ip r IH]; intros l c H; [exact H|]. cbn [ban_list].
  destruct (inb ip l) eqn:E; [now apply IH|]. apply IH. apply NoDup_snoc; [exact H|]. now apply inb_false.
Qed.

Lemma tweak_add_log p j : tweak j (add_log p j).
Proof.
  unfold add_log. destruct (reads_files (j_backend j)) eqn:F; cbn [negb]; [|apply tweak_refl].
  destruct (inb p (j_logs j)) eqn:I.
  - destruct (j_rlogs j) as [old|] eqn:R; [|apply tweak_refl].
    destruct (inb p old); [|apply tweak_refl].
    constructor; cbn; try tauto; [rewrite R; split; discriminate|].
    unfold logs_ok; cbn. rewrite F. intros (H1 & H2 & _ & H4). repeat split; try discriminate; auto.
    intros l E. injection E as <-. apply NoDup_remove1. auto.
  - constructor; cbn; try tauto. unfold logs_ok; cbn. rewrite F. intros (H1 & H2 & _ & H4).
    repeat split; try discriminate; auto. apply NoDup_snoc; [exact H1|]. now apply inb_false.
Qed.

Lemma tweak_del_log p j : tweak j (del_log p j).
Proof.
  unfold del_log. destruct (reads_files (j_backend j)) eqn:F; cbn [negb]; [|apply tweak_refl].
  constructor; cbn; try tauto. unfold logs_ok; cbn. rewrite F. intros (H1 & H2 & _ & H4).
  repeat split; try discriminate; auto. now apply NoDup_remove1.
Qed.

(** A setting command changes at most the jail it names, by a tweak. *)
Lemma on_jail_shape n s f ret :
  (forall j, tweak j (fst (f j))) ->
  fst (on_jail n s f ret) = s \/
  exists j j', lookup s n = Some j /\ fst (on_jail n s f ret) = put n j' s /\ tweak j j'.
Proof.
  intros H. unfold on_jail. destruct (lookup s n) as [j|] eqn:L; [|now left].
  right. specialize (H j). destruct (f j) as [j' e]. exists j, j'. auto.
Qed.

Lemma unban1_total w b ip bans : exists l r, unban1 w b ip bans = (l, r).
Proof. destruct (unban1 w b ip bans); eauto. Qed.

Lemma unban_one_shape w b ips n s : 
  fst (unban_in w b ips [n] s 0) = s \/
  exists j j', lookup s n = Some j /\ fst (unban_in w b ips [n] s 0) = put n j' s /\ tweak j j'.
Proof.
  cbn [unban_in]. destruct (lookup s n) as [j|] eqn:L; [|now left]. right.
  pose proof (NoDup_remove_banned w b ips (j_bans j)) as ND.
  destruct (remove_banned w b ips (j_bans j)) as [b' [c|]]; cbn [fst] in *; eexists _, _; (split; [reflexivity|]); (split; [reflexivity|now apply tweak_bans]).
Qed.

Ltac shape := first [ left; reflexivity
  | apply on_jail_shape; intros j;
    first [ apply tweak_idle | apply tweak_add_log | apply tweak_del_log | apply tweak_opts ] ].

Lemma set_key_shape w m n k vs s :
  fst (set_key w m n k vs s) = s \/
  exists j j', lookup s n = Some j /\ fst (set_key w m n k vs s) = put n j' s /\ tweak j j'.
Proof.
  unfold set_key.
  destruct (eqb k "idle").
  { destruct vs as [|[v|] r]; [shape| |shape]. destruct (eqb v "on"); [shape|]. destruct (eqb v "off"); shape. }
  destruct (eqb k "addignoreip").
  { destruct (texts vs) as [l|]; [|shape]. destruct (_ && s_quiet s); [shape|].
    apply on_jail_shape. intros j. destruct (add_each _ _ _). cbn [fst]. apply tweak_ips. }
  destruct (eqb k "delignoreip").
  { destruct vs as [|[v|] r]; [shape| |shape]. apply on_jail_shape. intros j.
    destruct (inb v (j_ips j)); [apply tweak_ips|apply tweak_refl]. }
  destruct (eqb k "addlogpath").
  { destruct vs as [|[v|] [|[t|] [|]]]; try shape. destruct (_ || _); shape. }
  destruct (eqb k "dellogpath").
  { destruct vs as [|[v|] r]; shape. }
  destruct (eqb k "addfailregex" || eqb k "addignoreregex").
  { cbv zeta. destruct (match vs with [] => _ | _ => _ end) as [e|l]; [shape|].
    match goal with |- context [on_jail n s ?f ?r] => 
      pose proof (on_jail_shape n s f r) as H; destruct (on_jail n s f r) as [s' r'] end.
    apply H. intros j. destruct (add_each _ _ _). cbn [fst]. destruct (eqb k "addfailregex"); [apply tweak_fail|apply tweak_ignore]. }
  destruct (eqb k "delfailregex" || eqb k "delignoreregex").
  { cbv zeta. destruct vs as [|[v|] r]; [shape| |shape]. destruct (e_int w v); [|shape].
    apply on_jail_shape. intros j. cbn [fst]. destruct (eqb k "delfailregex"); [apply tweak_fail|apply tweak_ignore]. }
  destruct (is_value_setting k).
  { destruct vs as [|[v|] r]; [shape| |shape]. destruct (e_value w k v); shape. }
  destruct (eqb k "banip").
  { destruct (texts vs) as [l|]; [|shape]. destruct (lookup s n) as [j|]; [|shape].
    right. pose proof (NoDup_ban_list l (j_bans j) 0) as ND. destruct (ban_list l (j_bans j) 0) as [b c]. cbn [fst] in *. eexists _, _. split; [reflexivity|]. split; [reflexivity|now apply tweak_bans]. }
  destruct (eqb k "unbanip").
  { destruct vs as [|x r]; [shape|]. cbv zeta. destruct (texts _) as [l|]; [|shape].
    unfold set_unban. destruct (lookup s n) as [j|] eqn:L; [|shape].
    rewrite <- L. apply unban_one_shape. }
  destruct (eqb k "attempt").
  { destruct (s_quiet s); [shape|]. destruct (lookup s n); shape. }
  destruct (inb k _); [|shape]. destruct (lookup s n); shape.
Qed.

Lemma command_set_shape w m args s :
  fst (command_set w m args s) = s \/
  exists n j j' r, args = T n :: r /\ lookup s n = Some j /\ fst (command_set w m args s) = put n j' s /\ tweak j j'.
Proof.
  unfold command_set. destruct args as [|[n|] r]; [now left| |now left].
  destruct (inb n server_settings); [now left|].
  destruct r as [|[k|] vs]; [now left| |now left].
  destruct (set_key_shape w m n k vs s) as [E|(j & j' & L & E & W)]; [now left|].
  right. exists n, j, j', (T k :: vs). auto.
Qed.

(** Unbanning in several jails: a sequence of tweaks. *)
Lemma unban_in_pres (P : srv -> Prop) w b ips l :
  (forall n j j' s, P s -> lookup s n = Some j -> tweak j j' -> P (put n j' s)) ->
  forall s c, P s -> P (fst (unban_in w b ips l s c)).
Proof.
  intros H. induction l as [|n r IH]; intros s c Hs; cbn [unban_in]; [exact Hs|].
  destruct (lookup s n) as [j|] eqn:L; [|exact Hs].
  pose proof (NoDup_remove_banned w b ips (j_bans j)) as ND.
  destruct (remove_banned w b ips (j_bans j)) as [b' [k|]]; cbn [fst] in *; [apply IH|]; apply (H n j); auto using tweak_bans.
Qed.

Lemma set_unban_pres (P : srv -> Prop) w n ips b s :
  (forall n j j' s, P s -> lookup s n = Some j -> tweak j j' -> P (put n j' s)) ->
  P s -> P (fst (set_unban w n ips b s)).
Proof.
  intros H Hs. unfold set_unban. destruct n as [n|].
  - destruct (lookup s n); [now apply unban_in_pres | exact Hs].
  - now apply unban_in_pres.
Qed.

Lemma command_set_pres (P : srv -> Prop) w m args s :
  (forall n j j' s, P s -> lookup s n = Some j -> tweak j j' -> P (put n j' s)) ->
  P s -> P (fst (command_set w m args s)).
Proof.
  intros H Hs. destruct (command_set_shape w m args s) as [->|(n & j & j' & r & _ & L & -> & W)]; eauto.
Qed.


Lemma logs_ok_begin j : logs_ok j -> logs_ok (filter_begin j).
Proof.
  unfold filter_begin, logs_ok. intros (H1 & H2 & H3 & H4).
  destruct (reads_files (j_backend j)) eqn:F; cbn in *; rewrite F.
  - repeat split; try discriminate; auto. intros l E. injection E as <-. exact H1.
  - auto.
Qed.

Lemma NoDup_fold_remove1 old : forall l, NoDup l -> NoDup (fold_left (fun l p => remove1 p l) old l).
Proof. induction old as [|p r IH]; intros l H; cbn; [exact H|]. apply IH, NoDup_remove1, H. Qed.

Lemma In_fold_remove1 x old : forall l, NoDup l ->
  (In x (fold_left (fun l p => remove1 p l) old l) <-> In x l /\ ~ In x old).
Proof.
  induction old as [|p r IH]; intros l H; cbn; [tauto|].
  rewrite IH by now apply NoDup_remove1. rewrite In_remove1_iff by exact H.
  split; [intros [[I N] N2]; split; [exact I|intros [E|E]; [congruence|tauto]] | intros [I N]; repeat split; try tauto; intros ->; tauto].
Qed.

Lemma logs_ok_end j : logs_ok j -> logs_ok (filter_end j).
Proof.
  unfold filter_end, logs_ok. intros (H1 & H2 & H3 & H4).
  destruct (j_rlogs j) as [old|] eqn:R; [|rewrite R; auto].
  cbn. repeat split; try discriminate; auto using NoDup_fold_remove1.
  destruct (H3 H) as [_ X]. discriminate.
Qed.

(** ** The invariant of all histories *)
Definition ev_no (e : event) : Z := match e with Created n _ => n | Started n => n | Stopped n => n end.

Record inv (s : srv) : Prop := {
  i_wf : dwf (s_jails s);
  i_rwf : dwf (s_reload s);
  i_logs : forall n j, jail_of s n = Some j -> logs_ok j;
  i_no : forall n j, jail_of s n = Some j -> j_no j < s_next s;
  i_uniq : forall n m j k, jail_of s n = Some j -> jail_of s m = Some k -> j_no j = j_no k -> n = m;
  i_ev : forall e, In e (s_events s) -> ev_no e < s_next s;
  i_started : forall no, In (Started no) (s_events s) ->
      In (Stopped no) (s_events s) \/ exists n j, jail_of s n = Some j /\ j_no j = no;
  i_alive : forall n j, jail_of s n = Some j -> is_alive j = true -> In (Started (j_no j)) (s_events s) }.

Lemma inv_init db : inv (srv_init db).
Proof. constructor; cbn; try constructor; try discriminate; try tauto. Qed.

Lemma jail_of_put s n j m : jail_of (put n j s) m = if eqb m n then Some j else jail_of s m.
Proof. unfold jail_of, put, set_jails. cbn [s_jails]. apply dget_dset. Qed.

Lemma put_jails n j s : s_jails (put n j s) = dset n j (s_jails s).
Proof. reflexivity. Qed.

Lemma is_alive_tweak j j' : tweak j j' -> is_alive j' = is_alive j.
Proof. intros W. unfold is_alive. now rewrite (tw_filter _ _ W), (tw_actions _ _ W). Qed.

(** Replacing a jail by another version of the same object. *)
Lemma inv_put s n j j' :
  inv s -> jail_of s n = Some j -> j_no j' = j_no j -> logs_ok j' ->
  (is_alive j' = true -> In (Started (j_no j)) (s_events s)) -> inv (put n j' s).
Proof.
  intros I L N O V. destruct I. constructor; cbn [put set_jails s_jails s_reload s_next s_events]; auto.
  - now apply dwf_dset.
  - intros m k. rewrite jail_of_put. destruct (eqb_spec m n) as [->|Nm]; [intros E; injection E as <-; exact O|eauto].
  - intros m k. rewrite jail_of_put. destruct (eqb_spec m n) as [->|Nm]; [intros E; injection E as <-; rewrite N; eauto|eauto].
  - intros m p k q. rewrite !jail_of_put.
    destruct (eqb_spec m n) as [->|Nm], (eqb_spec p n) as [->|Np]; intros E1 E2 E3; auto.
    + injection E1 as <-. rewrite N in E3. eauto.
    + injection E2 as <-. rewrite N in E3. eauto.
    + eauto.
  - intros no H. destruct (i_started0 no H) as [S|(m & k & Lk & Ek)]; [now left|right].
    destruct (eqb_spec m n) as [->|Nm].
    + exists n, j'. rewrite jail_of_put, eqb_refl. rewrite L in Lk. injection Lk as <-. split; [reflexivity|congruence].
    + exists m, k. rewrite jail_of_put. apply eqb_neq in Nm. rewrite Nm. auto.
  - intros m k. rewrite jail_of_put. destruct (eqb_spec m n) as [->|Nm]; [intros E; injection E as <-|eauto].
    rewrite N. exact V.
Qed.

Lemma inv_tweak s n j j' : inv s -> lookup s n = Some j -> tweak j j' -> inv (put n j' s).
Proof.
  intros I L W. assert (L' : jail_of s n = Some j) by exact L.
  apply (inv_put s n j j' I L'); [apply W | apply W, (i_logs s I n j L') |].
  rewrite (is_alive_tweak _ _ W). apply (i_alive s I n j L').
Qed.

Lemma inv_quiet q s : inv s -> inv (set_quiet q s).
Proof. intros []; constructor; auto. Qed.
Lemma inv_enabled l s : inv s -> inv (set_enabled l s).
Proof. intros []; constructor; auto. Qed.
Lemma inv_reload d s : dwf d -> inv s -> inv (set_reload d s).
Proof. intros D []; constructor; auto. Qed.

(** A further event about a jail of the registry. *)
Lemma inv_note_stopped s no : no < s_next s -> inv s -> inv (note (Stopped no) s).
Proof.
  intros N []; constructor; cbn [note s_jails s_reload s_next s_events]; auto.
  - intros e [E|E]%in_app_or; [auto|]. destruct E as [<-|[]]. exact N.
  - intros k [E|E]%in_app_or; [|destruct E as [E|[]]; discriminate].
    destruct (i_started0 k E) as [S|X]; [left; apply in_or_app; auto | right; exact X].
  - intros n j L V. apply in_or_app. left. eauto.
Qed.

Lemma inv_note_started s n j : jail_of s n = Some j -> inv s -> inv (note (Started (j_no j)) s).
Proof.
  intros L []; constructor; cbn [note s_jails s_reload s_next s_events]; auto.
  - intros e [E|E]%in_app_or; [auto|]. destruct E as [<-|[]]. cbn. eauto.
  - intros k [E|E]%in_app_or.
    + destruct (i_started0 k E) as [S|X]; [left; apply in_or_app; auto | right; exact X].
    + destruct E as [E|[]]. injection E as <-. right. exists n, j. auto.
  - intros m k Lk V. apply in_or_app. left. eauto.
Qed.

(** Removing a jail that was stopped. *)
Lemma inv_ddel s n j : inv s -> jail_of s n = Some j -> In (Stopped (j_no j)) (s_events s) ->
  inv (set_jails (ddel n (s_jails s)) s).
Proof.
  intros I L S. destruct I.
  assert (X : forall m k, jail_of (set_jails (ddel n (s_jails s)) s) m = Some k -> m <> n /\ jail_of s m = Some k).
  { intros m k. unfold jail_of. cbn [set_jails s_jails]. rewrite dget_ddel by exact i_wf0.
    destruct (eqb_spec m n); [discriminate|auto]. }
  constructor; cbn [set_jails s_jails s_reload s_next s_events]; auto.
  - now apply dwf_ddel.
  - intros m k H. apply X in H as [_ H]. eauto.
  - intros m k H. apply X in H as [_ H]. eauto.
  - intros m p k q H1 H2. apply X in H1 as [_ H1]. apply X in H2 as [_ H2]. eauto.
  - intros no H. destruct (i_started0 no H) as [Y|(m & k & Lk & Ek)]; [now left|].
    destruct (eqb_spec m n) as [->|Nm].
    + left. rewrite L in Lk. injection Lk as <-. now rewrite <- Ek.
    + right. exists m, k. split; [|exact Ek]. unfold jail_of. cbn [set_jails s_jails].
      rewrite dget_ddel_other by exact Nm. exact Lk.
  - intros m k H V. apply X in H as [_ H]. eauto.
Qed.

Lemma t_stop_alive a b t : t_alive (t_stop a b t) = true -> t_alive t = true.
Proof. destruct a, b, t; cbn; auto. Qed.

Lemma is_alive_stop a b j : is_alive (jail_stop a b j) = true -> is_alive j = true.
Proof.
  unfold is_alive, jail_stop. cbn. rewrite !orb_true_iff. intros [H|H]; apply t_stop_alive in H; auto.
Qed.

Lemma inv_stop s n j a b : inv s -> jail_of s n = Some j -> inv (put n (jail_stop a b j) s).
Proof.
  intros I L. apply (inv_put s n j); auto.
  - exact (i_logs s I n j L).
  - intros V. apply is_alive_stop in V. exact (i_alive s I n j L V).
Qed.

Lemma inv_del w n a b s : inv s -> inv (fst (del_jail w n a b s)).
Proof.
  intros I. unfold del_jail. destruct (lookup s n) as [j|] eqn:L; [|exact I].
  assert (L' : jail_of s n = Some j) by exact L.
  destruct b.
  - cbn [orb]. cbv zeta.
    set (s1 := note (Stopped (j_no j)) (put n (jail_stop a true j) s)).
    assert (I1 : inv s1). { apply inv_note_stopped; [exact (i_no s I n j L')|]. now apply inv_stop. }
    assert (L1 : jail_of s1 n = Some (jail_stop a true j)).
    { change (jail_of s1 n) with (jail_of (put n (jail_stop a true j) s) n). now rewrite jail_of_put, eqb_refl. }
    assert (S1 : In (Stopped (j_no (jail_stop a true j))) (s_events s1)) by (apply in_or_app; right; left; reflexivity).
    destruct (s_db s1).
    + destruct (e_dbdel w n); [|exact I1]. cbn [fst].
      apply (inv_ddel (set_enabled (filter (fun m => negb (eqb n m)) (s_enabled s1)) s1) n _ (inv_enabled _ _ I1) L1 S1).
    + apply (inv_ddel s1 n _ I1 L1 S1).
  - cbn [orb]. cbv zeta. destruct (is_alive j); [now apply inv_stop | exact I].
Qed.

Lemma inv_jails_add w n b s : inv s -> inv (fst (jails_add w n b s)).
Proof.
  intros I. unfold jails_add. destruct (dmem n (s_jails s)) eqn:M; [exact I|].
  destruct (e_make w n b); [|exact I]. cbn [fst].
  assert (Nn : jail_of s n = None). { unfold jail_of, dmem in *. destruct (dget n (s_jails s)); [discriminate|reflexivity]. }
  set (s1 := note _ _).
  assert (X : forall m k, jail_of s1 m = Some k -> (m = n /\ k = new_jail (s_next s) b) \/ (m <> n /\ jail_of s m = Some k)).
  { intros m k. change (jail_of s1 m) with (jail_of (put n (new_jail (s_next s) b) s) m).
    rewrite jail_of_put. destruct (eqb_spec m n) as [->|Nm]; [intros E; injection E as <-; auto|auto]. }
  destruct I. constructor; unfold s1; cbn [note set_next put set_jails s_jails s_reload s_next s_events]; fold s1; auto.
  - now apply dwf_dset.
  - intros m k H. apply X in H as [[_ ->]|[_ H]]; [|eauto]. unfold logs_ok, new_jail; cbn. repeat split; try constructor; discriminate.
  - intros m k H. apply X in H as [[_ ->]|[_ H]]; [cbn; lia|]. specialize (i_no0 m k H). lia.
  - intros m p k q H1 H2 E. apply X in H1 as [[-> ->]|[_ H1]], H2 as [[-> ->]|[_ H2]]; auto; cbn in E.
    + specialize (i_no0 p q H2). lia.
    + specialize (i_no0 m k H1). lia.
    + eauto.
  - intros e [E|E]%in_app_or; [specialize (i_ev0 e E); lia|]. destruct E as [<-|[]]. cbn. lia.
  - intros no [E|E]%in_app_or; [|destruct E as [E|[]]; discriminate].
    destruct (i_started0 no E) as [S|(m & k & Lk & Ek)]; [left; apply in_or_app; auto|].
    right. exists m, k. split; [|exact Ek]. change (jail_of (put n (new_jail (s_next s) b) s) m = Some k).
    rewrite jail_of_put. destruct (eqb_spec m n) as [->|]; [congruence|exact Lk].
  - intros m k H V. apply in_or_app. left. apply X in H as [[_ ->]|[_ H]]; [discriminate V|eauto].
Qed.

Lemma inv_db_add w n s : inv s -> inv (fst (db_add w n s)).
Proof.
  intros I. unfold db_add. destruct (s_db s); [|exact I]. destruct (e_dbadd w n); [|exact I]. now apply inv_enabled.
Qed.

Lemma inv_add w n b s : inv s -> inv (fst (add_jail w n b s)).
Proof.
  intros I. unfold add_jail.
  match goal with |- context [match ?x with (_, _) => _ end] => assert (H : inv (fst (fst x))) end.
  { destruct (dget n (s_reload s)) as [[|]|]; try exact I. destruct (lookup s n) as [j|]; [|exact I].
    destruct (eqb (j_backend j) b).
    - cbn [fst]. apply inv_reload; [|exact I]. apply dwf_dset, I.
    - pose proof (inv_del w n true true s I) as H1. destruct (del_jail w n true true s) as [s' [e|]]; [exact H1|].
      cbn [fst]. apply inv_reload; [|exact H1]. apply dwf_ddel, H1. }
  match goal with |- context [match ?x with (_, _) => _ end] => destruct x as [[s1 e1] flg] end.
  cbn [fst] in H. destruct e1 as [e|]; [exact H|].
  assert (H2 : inv (fst (if flg then jails_add w n b s1 else (s1, None)))) by (destruct flg; [apply inv_jails_add|]; exact H).
  destruct (if flg then jails_add w n b s1 else (s1, None)) as [s2 [e|]]; [exact H2|]. now apply inv_db_add.
Qed.

Lemma jail_start_no w n j : j_no (fst (jail_start w n j)) = j_no j /\ j_rlogs (fst (jail_start w n j)) = j_rlogs j
  /\ (logs_ok j -> logs_ok (fst (jail_start w n j))).
Proof.
  unfold jail_start. destruct (j_filter j); try (split; [reflexivity|split; [reflexivity|auto]]).
  destruct (e_fstart w n); [|split; [reflexivity|split; [reflexivity|auto]]].
  cbv zeta. destruct (j_actions _); try (split; [reflexivity|split; [reflexivity|unfold logs_ok; cbn; tauto]]).
  destruct (e_astart w n); split; try reflexivity; split; try reflexivity; unfold logs_ok; cbn; tauto.
Qed.

Lemma inv_start w n s : inv s -> inv (fst (start_jail w n s)).
Proof.
  intros I. unfold start_jail. destruct (lookup s n) as [j|] eqn:L; [|exact I].
  assert (L' : jail_of s n = Some j) by exact L.
  match goal with |- context [match ?x with (_, _) => _ end] =>
    assert (H : inv (fst (fst x)) /\ jail_of (fst (fst x)) n = Some (snd (fst x)) ) end.
  { destruct (negb (is_alive j)) eqn:V.
    - destruct (jail_start_no w n j) as (N & R & O).
      destruct (jail_start w n j) as [j' e]. cbn [fst snd] in *.
      destruct (is_alive j') eqn:V'.
      + split; [|change (jail_of (put n j' s) n = Some j'); now rewrite jail_of_put, eqb_refl].
        (* the event comes first for the invariant *)
        assert (I1 : inv (put n j' (note (Started (j_no j)) s))).
        { apply (inv_put _ n j); auto.
          - now apply inv_note_started with (n := n).
          - exact (O (i_logs s I n j L')).
          - intros _. apply in_or_app. right. left. reflexivity. }
        exact I1.
      + split; [|now rewrite jail_of_put, eqb_refl].
        apply (inv_put _ n j); auto; [exact (O (i_logs s I n j L'))|congruence].
    - destruct (dmem n (s_reload s)); cbn [fst snd]; [|auto].
      split; [|exact L]. apply inv_reload; [|exact I]. apply dwf_ddel, I. }
  match goal with |- context [match ?x with (_, _) => _ end] => destruct x as [[s1 j1] [e|]] end; cbn [fst snd] in H; [apply H|].
  destruct H as [H1 H2]. destruct (j_idle j1); [|exact H1]. apply (inv_tweak s1 n j1); auto using tweak_idle.
Qed.

Lemma inv_begin w n s : inv s -> inv (fst (begin_one w n s)).
Proof.
  intros I. unfold begin_one. destruct (lookup s n) as [j|] eqn:L; [|exact I].
  assert (I1 : inv (set_reload (dset n true (s_reload s)) (put n (with_idle true j) s))).
  { apply inv_reload; [apply dwf_dset, I|]. apply (inv_tweak s n j); auto using tweak_idle. }
  cbv zeta. destruct (e_begin w n); [|exact I1]. cbn [fst].
  apply (inv_put _ n (with_idle true j)); auto.
  - change (jail_of (put n (with_idle true j) s) n = Some (with_idle true j)). now rewrite jail_of_put, eqb_refl.
  - unfold filter_begin. destruct (reads_files _); reflexivity.
  - apply logs_ok_begin. exact (tw_logs _ _ (tweak_idle true j) (i_logs s I n j L)).
  - intros V. apply (i_alive s I n j L). unfold filter_begin in V. destruct (reads_files _); exact V.
Qed.

Lemma inv_commit w n s : inv s -> inv (fst (commit_one w n s)).
Proof.
  intros I. unfold commit_one. destruct (lookup s n) as [j|] eqn:L; [|exact I].
  destruct (e_end w n); [|exact I]. cbn [fst]. apply (inv_put _ n j); auto.
  - unfold filter_end. destruct (j_rlogs j); reflexivity.
  - apply logs_ok_end. exact (i_logs s I n j L).
  - intros V. apply (i_alive s I n j L). unfold filter_end in V. destruct (j_rlogs j); exact V.
Qed.

Lemma inv_handler w c s : inv s -> inv (fst (handler w c s)).
Proof.
  apply handler_pres; auto using inv_quiet, inv_del, inv_add, inv_start, inv_begin, inv_commit.
  - intros s' H. apply inv_reload; [constructor|exact H].
  - intros. apply command_set_pres; auto. intros. eapply inv_tweak; eauto.
  - intros. apply set_unban_pres; auto. intros. eapply inv_tweak; eauto.
Qed.

Lemma inv_stream w cs s : inv s -> inv (fst (stream w cs s)).
Proof.
  apply stream_pres; auto using inv_quiet, inv_del, inv_add, inv_start, inv_begin, inv_commit.
  - intros s' H. apply inv_reload; [constructor|exact H].
  - intros. apply command_set_pres; auto. intros. eapply inv_tweak; eauto.
  - intros. apply set_unban_pres; auto. intros. eapply inv_tweak; eauto.
Qed.

Lemma inv_step s o : inv s -> inv (fst (sv_step s o)).
Proof.
  intros I. destruct o as [w c|n f|n|n ip|n ip]; cbn [sv_step].
  - unfold proceed. pose proof (inv_handler w c s I) as H. destruct (handler w c s) as [s' [v|e]]; exact H.
  - cbn [fst]. destruct (lookup s n) as [j|] eqn:L; [|exact I]. apply (inv_put s n j); auto.
    + exact (i_logs s I n j L).
    + intros V. apply (i_alive s I n j L). unfold is_alive in *. cbn in V.
      destruct f, (j_filter j), (j_actions j); cbn in *; auto.
  - cbn [fst]. destruct (lookup s n) as [j|] eqn:L; [|exact I]. apply (inv_tweak s n j); auto using tweak_idle.
  - cbn [fst]. destruct (lookup s n) as [j|] eqn:L; [|exact I]. apply (inv_tweak s n j); auto. apply tweak_bans. intros ND.
    destruct (inb ip (j_bans j)) eqn:E; [exact ND|]. apply NoDup_snoc; [exact ND|]. now apply inb_false.
  - cbn [fst]. destruct (lookup s n) as [j|] eqn:L; [|exact I]. apply (inv_tweak s n j); auto. apply tweak_bans, NoDup_remove1.
Qed.

Lemma inv_run ops : forall s, inv s -> inv (sv_run s ops).
Proof. induction ops as [|o r IH]; intros s I; [exact I|]. apply IH, inv_step, I. Qed.
