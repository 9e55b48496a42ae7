(** Proofs about setting up the server, part 1: the form of the commands of a jail. *)
From Verif Require Import Base Text Backtrack Options_Model Options_Spec Stream_Model Stream_Spec Stream_Proofs Stream_Proofs2 Stream_Proofs3 Stream_Proofs4 Stream_Proofs5 Stream_Proofs7.
From Verif Require Import Setup_Model Setup_Spec.
From Verif Require Stream_Props.
Local Open Scope string_scope.
Local Open Scope list_scope.

Definition regex_word (k : text) : Prop := k = tx "addfailregex" \/ k = tx "addignoreregex".
Inductive shape (n : text) : cmd -> Prop :=
| SH_value k v : In k one_value \/ substring k (tx "datepattern") = true -> shape n (CSet n [VText k; v])
| SH_regex k r : regex_word k -> shape n (CSet n [VText k; VText r])
| SH_regexes k l : regex_word k -> shape n (CMulti n k l)
| SH_ips l : shape n (CSet n (VText (tx "addignoreip") :: map VText l))
| SH_journal l : shape n (CSet n (VText (tx "addjournalmatch") :: map VText l))
| SH_log p t : shape n (CSet n [VText (tx "addlogpath"); VText p; VText t])
| SH_action l : shape n (CSet n (VText (tx "addaction") :: l))
| SH_option l : shape n (CSet n (VText (tx "action") :: l))
| SH_options a l : shape n (CMultiAct n a l).

Section Shape.
Context (E : env) (allow : bool) (j : jail) (F : opts) (s : list cmd).
Context (HC : jail_convert E allow j = COk s false) (HF : filter_values E j F) (HP : proper j).

Lemma ups_shape o : Forall (shape (j_name j)) (ups (j_name j) o).
Proof.
  induction o as [|[k v] o IH]; [constructor|]. cbn [ups]. apply Forall_app. split; [exact IH|].
  destruct (negb (is_none v)); [|constructor]. cbn [andb]. destruct (eqb_spec k (tx "usedns")) as [->|]; [|constructor].
  constructor; [|constructor]. apply SH_value. left. apply inb_In. reflexivity.
Qed.
Lemma prios_shape o : Forall (shape (j_name j)) (prios (j_name j) o).
Proof.
  apply Forall_forall. intros c I. apply in_flat_map in I as ([k v] & _ & I). cbn [fst snd] in I. destruct (negb (is_none v) && inb k _) eqn:B; [|contradiction].
  destruct I as [<-|[]]. apply andb_true_iff in B as [_ B]. apply inb_In in B. apply SH_value. left. apply inb_In. destruct B as [<-|[<-|[]]]; reflexivity.
Qed.
Lemma journal_shape l : forall r, journal_cmds E (j_name j) l = Some r -> Forall (shape (j_name j)) r.
Proof.
  induction l as [|m l IH]; intros r H; cbn in H; [injection H as <-; constructor|]. destruct (nonempty m); [|now apply IH].
  destruct (e_shlex E m) as [ws|]; [|discriminate]. destruct (journal_cmds E (j_name j) l) as [x|]; [|discriminate]. injection H as <-. constructor; [apply SH_journal|now apply IH].
Qed.
Lemma rests_shape o : forall r, rests E (j_name j) o = Some r -> Forall (shape (j_name j)) r.
Proof.
  induction o as [|[k v] o IH]; intros r H; cbn [rests] in H; [injection H as <-; constructor|].
  destruct (rest1 E (j_name j) (k, v)) as [a|] eqn:R; [|discriminate]. destruct (rests E (j_name j) o) as [b|]; [|discriminate]. injection H as <-.
  apply Forall_app. split; [|now apply IH]. clear IH b. unfold rest1 in R.
  assert (W : inb k [tx "failregex"; tx "ignoreregex"] = true -> regex_word (tx "add" ++ k)).
  { intros B. apply inb_In in B as [<-|[<-|[]]]; [now left|now right]. }
  assert (G : forall (x : option (list cmd)), x = Some a ->
    x = (if inb k [tx "failregex"; tx "ignoreregex"] then
        match v with
        | VText t => Some match filter nonempty (split newline t) with
                          | [] => []
                          | [r] => [set_cmd (j_name j) (tx "add" ++ k) (VText r)]
                          | l => [CMulti (j_name j) (tx "add" ++ k) l]
                          end
        | _ => None
        end
      else if inb k [tx "usedns"; tx "maxlines"; tx "prefregex"] then Some []
      else if substring k (tx "datepattern") then Some [set_cmd (j_name j) k v]
      else if eqb k (tx "journalmatch") then match v with VText t => journal_cmds E (j_name j) (split newline t) | _ => None end
      else Some []) -> Forall (shape (j_name j)) a).
  { intros x -> Q. destruct (inb k [tx "failregex"; tx "ignoreregex"]).
    - destruct v as [| | |t]; try discriminate. injection Q as ->. specialize (W eq_refl).
      destruct (filter nonempty (split newline t)) as [|r1 [|r2 l]]; [constructor| |]; (constructor; [|constructor]); [now apply SH_regex|now apply SH_regexes].
    - destruct (inb k [tx "usedns"; tx "maxlines"; tx "prefregex"]); [injection Q as ->; constructor|].
      destruct (substring k (tx "datepattern")) eqn:Sb; [injection Q as ->; constructor; [|constructor]; apply SH_value; now right|].
      destruct (eqb k (tx "journalmatch")); [|injection Q as ->; constructor]. destruct v as [| | |t]; try discriminate. now apply (journal_shape (split newline t)). }
  destruct v; try (exact (G _ R eq_refl)). injection R as <-. constructor.
Qed.
Lemma others_shape : Forall (shape (j_name j)) (others (j_name j) (j_opts j)).
Proof.
  apply Forall_forall. intros c I. apply in_flat_map in I as ([k v] & Ik & I). destruct (eqb k (tx "logpath")) eqn:N2; [contradiction|].
  destruct (eqb k (tx "ignoreip")) eqn:N3; [destruct I as [<-|[]]; apply SH_ips|]. destruct (inb k ignore_opts) eqn:N1; [contradiction|]. destruct I as [<-|[]]. apply SH_value. left.
  assert (Kc : In k (names config_opts)) by (apply HP; apply (in_map fst) in Ik; exact Ik). apply inb_In. revert N1 N2 N3. clear - Kc. vm_compute in Kc.
  repeat (destruct Kc as [<-|Kc]; [intros N1 N2 N3; first [reflexivity | discriminate]|]). contradiction.
Qed.
Lemma logs_shape : Forall (shape (j_name j)) (plogs E (j_name j) (j_opts j) (j_opts j)).
Proof.
  apply Forall_forall. intros c I. apply in_flat_map in I as ([k v] & Ik & I). destruct (_ && _); [|contradiction]. apply in_flat_map in I as (l & _ & I).
  unfold path_cmds in I. destruct (match rsplit l with Some x => x | None => _ end) as [p t]. apply in_map_iff in I as (q & <- & _). apply SH_log.
Qed.
Lemma acts_shape l : forall acts, actions_convert E (j_name j) l = Some acts -> Forall (shape (j_name j)) acts.
Proof.
  induction l as [|a l IH]; intros acts H; cbn [actions_convert] in H; [injection H as <-; constructor|].
  destruct (match a with ACommand a => _ | APython n p js => _ end) as [x|] eqn:Ex; [|discriminate]. destruct (actions_convert E (j_name j) l) as [r|]; [|discriminate].
  injection H as <-. apply Forall_app. split; [|now apply IH]. destruct a as [n p js|a].
  - injection Ex as <-. constructor; [apply SH_action|constructor].
  - unfold action_convert in Ex. destruct (get_combined _ _ _ _ _) as [o|]; [|discriminate]. injection Ex as <-. constructor; [apply SH_action|].
    destruct (action_multi o (a_init a)) as [|[k v] [|y r']]; [constructor| |]; (constructor; [|constructor]); [apply SH_option|apply SH_options].
Qed.
Lemma jail_shape : exists s', s = CAdd (j_name j) (backend_of (j_opts j)) :: s' /\ Forall (shape (j_name j)) s'.
Proof.
  destruct (structure E allow j F s HC HF) as (rF & rJ & acts & RF & RJ & AC & ->). eexists. split; [reflexivity|].
  repeat (apply Forall_app; split); auto using ups_shape, prios_shape, others_shape, logs_shape; eauto using rests_shape, acts_shape.
Qed.
End Shape.
