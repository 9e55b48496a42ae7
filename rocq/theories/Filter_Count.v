(** Bans and reports of a failure manager, counted: vocabulary and the lemma behind C58. *)
From Verif Require Import Base Ticket_Model FailManager_Model FailManager_Spec FailManager_Proofs FailManager_Props.
Require Import ZifyBool ZifyNat.

(** What a history of calls reported: ID, time and count; and the tickets handed out for a ban. *)
Fixpoint calls_reported (ops : list fm_op) : list (string * Z * Z) :=
  match ops with
  | [] => []
  | FAdd tk count _ :: r => (t_id tk, t_time tk, count) :: calls_reported r
  | _ :: r => calls_reported r
  end.
Fixpoint handed (outs : list fm_out) : list ticket :=
  match outs with
  | [] => []
  | OTicket (Some t) :: r => t :: handed r
  | _ :: r => handed r
  end.
(** The calls a filter makes: reports of new tickets, bans, clean-ups and settings. *)
Definition filter_call (o : fm_op) : Prop :=
  match o with
  | FAdd tk count observed => observed = false /\ t_retry tk = 0 /\ t_failures tk = 0 /\ t_isban tk = false /\ 0 <= count
  | FAddSame _ _ _ | FDel _ => False
  | FSetTime n => 0 <= n
  | _ => True
  end.
(** The reports of an ID, added up; the bans of an ID. *)
Fixpoint total (id : string) (l : list (string * Z * Z)) : Z :=
  match l with
  | [] => 0
  | (i, _, c) :: r => (if eqb i id then c else 0) + total id r
  end.
Fixpoint bans (id : string) (l : list ticket) : Z :=
  match l with
  | [] => 0
  | t :: r => (if eqb (t_id t) id then 1 else 0) + bans id r
  end.

Lemma calls_app a b : calls_reported (a ++ b) = calls_reported a ++ calls_reported b.
Proof. induction a as [|o a IH]; cbn; [reflexivity|]. destruct o; cbn; now rewrite ?IH. Qed.
Lemma handed_app a b : handed (a ++ b) = handed a ++ handed b.
Proof. induction a as [|o a IH]; cbn; [reflexivity|]. destruct o as [| |[t|]]; cbn; now rewrite ?IH. Qed.
Lemma total_app id a b : total id (a ++ b) = total id a + total id b.
Proof. induction a as [|[[i t] c] a IH]; cbn; [reflexivity|]. rewrite IH. lia. Qed.
Lemma bans_app id a b : bans id (a ++ b) = bans id a + bans id b.
Proof. induction a as [|t a IH]; cbn; [reflexivity|]. rewrite IH. lia. Qed.
Lemma filter_sane o : filter_call o -> sane_op o.
Proof. destruct o; cbn; intuition lia. Qed.
Lemma fm_run_len ops : forall fm fm' outs, fm_run fm ops = (fm', outs) -> length outs = length ops.
Proof.
  induction ops as [|o ops IH]; cbn; intros fm fm' outs E; [now injection E as <- <-|]. destruct (fm_step fm o) as [f1 o1]. destruct (fm_run f1 ops) as [f2 o2] eqn:E2.
  injection E as <- <-. cbn. f_equal. eauto.
Qed.
Lemma combine_snoc {A B} (a : list A) (b : list B) x y : length a = length b -> combine (a ++ [x]) (b ++ [y]) = combine a b ++ [(x, y)].
Proof. revert b. induction a as [|p a IH]; destruct b as [|q b]; cbn; intros L; try discriminate; [reflexivity|]. injection L as L. now rewrite IH. Qed.

(** At least [R] reported failures for each ban. *)
Lemma bans_le R id : forall ops fm fm' outs, fresh_fm fm -> Forall filter_call ops -> R <= fm_retry fm -> (forall n, In (FSetRetry n) ops -> R <= n) -> fm_run fm ops = (fm', outs) ->
  R <= fm_retry fm' /\
  match track id (fm_time fm) (combine ops outs) with
  | Some e => 0 <= e_weight e /\ R * bans id (handed outs) + e_weight e <= total id (calls_reported ops)
  | None => R * bans id (handed outs) <= total id (calls_reported ops)
  end.
Proof.
  induction ops as [|o ops IH] using rev_ind; intros fm fm' outs Fr C R0 Rs E.
  { cbn in E. injection E as <- <-. split; [exact R0|]. cbn. lia. }
  rewrite fm_run_app in E. destruct (fm_run fm ops) as [fm1 o1] eqn:E1. cbn [fm_run] in E. destruct (fm_step fm1 o) as [fm2 out] eqn:E2. injection E as <- <-.
  apply Forall_app in C as [C Co]. inversion Co as [|? ? Co' _]; subst. clear Co.
  destruct (IH fm fm1 o1 Fr C R0 (fun n I => Rs n (in_or_app _ _ _ (or_introl I))) E1) as [R1 T].
  rewrite combine_snoc by (symmetry; eapply fm_run_len; eauto). unfold track in *. rewrite fold_left_app. cbn [fold_left].
  set (st := fold_left (track1 id) (combine ops o1) (fm_time fm, None)) in *. destruct st as [ft en] eqn:St. cbn [snd] in T.
  rewrite calls_app, handed_app, total_app, bans_app. 
  assert (Keep : fm_retry fm2 = fm_retry fm1 -> R <= fm_retry fm2) by lia.
  destruct o as [tk count obs|i count obs|t|i|q|n|n|n]; cbn [filter_call] in Co'; try contradiction.
  - destruct Co' as (-> & Hr & Hf & Hb & Hc). cbn [fm_step] in E2. destruct (add_failure fm1 tk false count false) as [f n] eqn:Ea. injection E2 as <- <-.
    split. { apply Keep. unfold add_failure in Ea. repeat match type of Ea with context [match ?x with _ => _ end] => destruct x end; injection Ea as <- <-; reflexivity. }
    cbn [track1 calls_reported handed total bans]. destruct (eqb (t_id tk) id); cbn [snd]; [|destruct en; lia].
    rewrite Hb. cbn [orb]. unfold report_weight. rewrite Hr. destruct en as [e|]; cbn [e_weight]; lia.
  - cbn [fm_step] in E2. injection E2 as <- <-. split. { apply Keep. apply cleanup_other. }
    cbn [track1 calls_reported handed total bans]. cbn [snd]. destruct en as [e|]; [|lia]. destruct (_ <=? _); lia.
  - cbn [fm_step] in E2. destruct (to_ban fm1 q) as [f r] eqn:Et. injection E2 as <- <-.
    split. { apply Keep. unfold to_ban in Et. destruct (first_bannable _ _) as [[k t]|]; injection Et as <- <-; reflexivity. }
    cbn [track1 calls_reported handed total bans]. destruct r as [t|]; cbn [handed bans snd]; [|destruct en; lia].
    destruct (eqb_spec (t_id t) id) as [Eq|N]; cbn [snd]; [|destruct en; lia].
    destruct (C01_ban_needs_maxretry_reports fm ops fm1 o1 q f t Fr) as (e & He & Hw); auto; [eapply Forall_impl; [intros a; apply filter_sane|exact C]|].
    unfold track in He. rewrite Eq in He. fold st in He. rewrite St in He. cbn [snd] in He. subst en. lia.
  - cbn [fm_step] in E2. injection E2 as <- <-. cbn [fm_retry]. split; [apply Rs; apply in_or_app; right; now left|]. cbn [track1 calls_reported handed total bans snd]. destruct en; lia.
  - cbn [fm_step] in E2. injection E2 as <- <-. split; [apply Keep; reflexivity|]. cbn [track1 calls_reported handed total bans snd]. destruct en; lia.
  - cbn [fm_step] in E2. injection E2 as <- <-. split; [apply Keep; reflexivity|]. cbn [track1 calls_reported handed total bans snd]. destruct en; lia.
Qed.
