(** Proofs about the actions of a jail. *)
From Verif Require Import Base Text Backtrack Options_Model Options_Spec Options_Proofs Options_Proofs2 Options_Props Stream_Model Stream_Spec Stream_Proofs Stream_Proofs2 Stream_Proofs3 Stream_Proofs4 Stream_Proofs5 Stream_Proofs6 Stream_Proofs7.
Require Import ZifyBool ZifyNat.
Local Open Scope string_scope.
Local Open Scope list_scope.

Lemma nodup_action : NoDup (names action_opts).
Proof. cbn [names map action_opts fst snd app]. nodup. Qed.
Lemma action_template t n d : In (t, n, d) action_opts -> starts_with (tx "known/") n = false /\ n <> tx "__name__" /\ d = VNone.
Proof.
  intros I. unfold action_opts in I. repeat (destruct I as [I|I]; [injection I as <- <- <-; split; [reflexivity|split; [discriminate|reflexivity]]|]). contradiction.
Qed.
Lemma action_special k : In k (names action_opts) -> k <> tx "name" /\ k <> tx "actname".
Proof. intros I. split; intros ->; vm_compute in I; repeat (destruct I as [I|I]; [discriminate I|]); exact I. Qed.
Lemma action_kname k : In k (names action_opts) -> starts_with (tx "known/") k = false /\ k <> tx "__name__".
Proof. intros I. apply in_map_iff in I as ([[t n] d] & <- & I). apply action_template in I. cbn. tauto. Qed.
Lemma ends_py n : ends_with (tx ".py") n = true <-> exists b, n = b ++ tx ".py".
Proof.
  unfold ends_with. rewrite starts_prefix. unfold has_prefix. split.
  - intros [r H]. exists (rev r). rewrite <- (rev_involutive n), H, rev_app_distr. now rewrite rev_involutive.
  - intros [b ->]. exists (rev b). apply rev_app_distr.
Qed.
Lemma base_py b : base_name (b ++ tx ".py") = b.
Proof. unfold base_name. rewrite app_length. change (length (tx ".py")) with 3%nat. rewrite Nat.add_sub, firstn_app, Nat.sub_diag, firstn_O, app_nil_r. apply firstn_all. Qed.

(** action_init: the name and the parameters *)
Lemma action_init_spec file jail params n init : dwf params -> action_init file jail params = (n, init) ->
  dwf init /\ action_name_is jail file params n
  /\ forall k, dget k init = if eqb k (tx "actname") then Some n else if eqb k (tx "name") then Some (own_name jail params) else dget k params.
Proof.
  intros W H. unfold action_name_is. destruct (dget (tx "actname") params) as [a|] eqn:A.
  - unfold action_init in H. destruct (dget (tx "name") params) as [m|] eqn:N.
    + rewrite A in H. injection H as <- <-. split; [exact W|]. split; [reflexivity|]. intros k. destruct (eqb_spec k (tx "actname")) as [->|Na]; [exact A|].
      destruct (eqb_spec k (tx "name")) as [->|Nn]; [|reflexivity]. unfold own_name. now rewrite N.
    + rewrite dget_dset_other, A in H by discriminate. injection H as <- <-. split; [now apply dwf_dset|]. split; [reflexivity|]. intros k.
      destruct (eqb_spec k (tx "actname")) as [->|Na]; [now rewrite dget_dset_other by discriminate|]. destruct (eqb_spec k (tx "name")) as [->|Nn]; [unfold own_name; rewrite N; apply dget_dset_same|].
      now apply dget_dset_other.
  - pose proof (action_name file jail params A) as An. rewrite H in An. cbn [fst] in An. split; [|split].
    + unfold action_init in H. destruct (dget (tx "name") params) as [m|]; [rewrite A in H|rewrite dget_dset_other, A in H by discriminate]; injection H as _ <-; repeat apply dwf_dset; exact W.
    + rewrite An. unfold default_name, suffix. destruct (starts_with jail (own_name jail params)) eqn:S'.
      * left. exists (skipn (length jail) (own_name jail params)). split; [apply prefix_skip, S'|reflexivity].
      * right. split; [intros P; apply starts_prefix in P; congruence|reflexivity].
    + intros k. rewrite An. assert (Nm : own_name jail params = match dget (tx "name") params with Some m => m | None => jail end) by reflexivity.
      unfold action_init in H. destruct (dget (tx "name") params) as [m|] eqn:N.
      * rewrite A in H. injection H as Hn <-. rewrite <- An, <- Hn. destruct (eqb_spec k (tx "actname")) as [->|Na]; [apply dget_dset_same|]. rewrite dget_dset_other by exact Na.
        destruct (eqb_spec k (tx "name")) as [->|Nn]; [now rewrite Nm|reflexivity].
      * rewrite dget_dset_other, A in H by discriminate. injection H as Hn <-. rewrite <- An, <- Hn. destruct (eqb_spec k (tx "actname")) as [->|Na]; [apply dget_dset_same|]. rewrite dget_dset_other by exact Na.
        destruct (eqb_spec k (tx "name")) as [->|Nn]; [rewrite Nm; apply dget_dset_same|now apply dget_dset_other].
Qed.

Section WithEnv.
Context (E : env) (name : text) (J : opts).
Lemma one_action_spec s n d l : extract_options s = Some (n, d) -> dwf d -> one_action E name J s = AOk l -> exists a, l = [a] /\ action_of E name J (n, d) a.
Proof.
  intros X W H. unfold one_action in H. rewrite X in H. destruct (ends_with (tx ".py") n) eqn:Py.
  - injection H as <-. apply ends_py in Py as [b ->]. eexists. split; [reflexivity|]. cbn [action_of fst snd]. exists b. split; [reflexivity|]. rewrite base_py. split; [reflexivity|]. split; [reflexivity|].
    exists (ddel (tx "actname") d). split; [reflexivity|]. intros k. rewrite dget_ddel by exact W. reflexivity.
  - destruct (action_init n name d) as [an init] eqn:AI. destruct (e_action E n) as [f|] eqn:Ef; [|discriminate].
    destruct (def_get_options E action_opts f J (as_opts init) false) as [[o i]|] eqn:D; [|discriminate]. injection H as <-. eexists. split; [reflexivity|]. cbn [action_of fst snd].
    destruct (action_init_spec _ _ _ _ _ W AI) as (Wi & An & G). split; [intros b Hb; assert (ends_with (tx ".py") n = true) by (apply ends_py; eauto); congruence|]. split; [exact An|].
    pose proof (as_opts_dwf _ Wi) as Wi'. destruct (def_values E _ _ _ _ _ _ D Wi' nodup_action action_template) as [_ Val]. destruct (def_init E _ _ _ _ _ _ _ D Wi') as [_ Gi].
    exists f, (merge J (as_opts init)). split; [exact Ef|]. cbn [a_opts a_init a_name]. split.
    + intros k Ik. rewrite (Val k Ik). unfold file_value. rewrite as_opts_get. destruct (action_special k Ik) as [N1 N2].
      assert (Pa : param init k = param d k). { unfold param. rewrite G. destruct (eqb_spec k (tx "actname")); [contradiction|]. destruct (eqb_spec k (tx "name")); [contradiction|reflexivity]. }
      now rewrite Pa.
    + intros k K1 K2. rewrite (Gi k K1 K2), as_opts_get. unfold param. rewrite G. destruct (eqb k (tx "actname")); [reflexivity|]. destruct (eqb k (tx "name")); reflexivity.
Qed.
Lemma all_actions_spec : forall l acts, all_actions E name J l = AOk acts -> exists r, read_actions l = Some r /\ Forall2 (action_of E name J) r acts.
Proof.
  induction l as [|s l IH]; intros acts H; cbn [all_actions] in H; [injection H as <-; exists []; split; [reflexivity|constructor]|]. cbn [read_actions].
  destruct (nonempty (strip s)); [|auto]. destruct (one_action E name J (strip s)) as [a|e|] eqn:O; try discriminate. destruct (all_actions E name J l) as [r| |] eqn:A; try discriminate.
  injection H as <-. destruct (IH r eq_refl) as (rs & Hr & F). destruct (extract_options (strip s)) as [[n d]|] eqn:X.
  - assert (W : dwf d) by (apply C68_options in X as (? & _ & GV); apply GV). destruct (one_action_spec _ _ _ _ X W O) as (x & -> & Ax). rewrite Hr. exists ((n, d) :: rs). split; [reflexivity|]. cbn [app]. now constructor.
  - unfold one_action in O. rewrite X in O. discriminate.
Qed.
End WithEnv.
