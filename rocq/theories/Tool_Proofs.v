(** Proofs about fail2ban-regex: the numbers and the printed lines. *)
From Verif Require Import Base Text IPAddr_Model Lines_Model Session_Model Filter_Model Tool_Model Tool_Spec.
Local Open Scope string_scope. Local Open Scope list_scope. Local Open Scope Z_scope.

(** * Which lines are looked at *)
Definition ending (c : ascii) : bool := eqb c "010"%char || eqb c "013"%char.
Lemma drop_ends_split s : exists e, s = e ++ drop_ends s /\ forallb ending e = true /\ match drop_ends s with c :: _ => ending c = false | [] => True end.
Proof.
  induction s as [|c r (e & E & F & G)]; [exists []; repeat split|]. cbn [drop_ends]. fold (ending c). destruct (ending c) eqn:C.
  - exists (c :: e). cbn. rewrite C. split; [now rewrite <- E|]. split; [exact F|exact G].
  - exists []. repeat split. exact C.
Qed.
Lemma rstrip_split s : exists e, s = rstrip_ends s ++ e /\ forallb ending e = true /\ (rstrip_ends s = [] \/ exists r c, rstrip_ends s = r ++ [c] /\ ending c = false).
Proof.
  unfold rstrip_ends. destruct (drop_ends_split (rev s)) as (e & E & F & G). exists (rev e). split; [rewrite <- rev_app_distr, <- E; now rewrite rev_involutive|]. split.
  - apply forallb_forall. intros x I1. apply in_rev in I1. now apply (proj1 (forallb_forall _ _) F).
  - destruct (drop_ends (rev s)) as [|c r]; [now left|right]. exists (rev r), c. now split.
Qed.
Lemma looked_iff i : looked_at i = match shown_input i with Some _ => true | None => false end.
Proof.
  destruct i as [t|l d]; [|reflexivity]. cbn [looked_at shown_input]. destruct (rstrip_split t) as (e & E & F & G).
  assert (X : existsb (fun c => negb (eqb c "010"%char || eqb c "013"%char)) t = match rstrip_ends t with [] => false | _ => true end).
  { change (fun c => negb (eqb c "010"%char || eqb c "013"%char)) with (fun c => negb (ending c)). destruct G as [G|(r & c & G & C)].
    - rewrite G. rewrite G in E. cbn in E. subst e. apply Bool.not_true_iff_false. rewrite existsb_exists. intros (x & I1 & N).
      rewrite (proj1 (forallb_forall _ _) F x I1) in N. discriminate.
    - rewrite G. transitivity true; [|now destruct r]. apply existsb_exists. exists c. split; [|now rewrite C]. rewrite E, G, <- app_assoc. apply in_or_app. right. now left. }
  rewrite X. destruct (rstrip_ends t) as [|c r] eqn:R; [reflexivity|]. cbn [andb]. rewrite E. cbn [app hd_error].
  destruct (eqb_spec (Some c) (Some "#"%char)) as [Y|Y].
  - injection Y as ->. reflexivity.
  - cbn. destruct c as [[] [] [] [] [] [] [] []]; try reflexivity; congruence.
Qed.

(** * The numbers *)
Lemma recount_facts o l st : tested (recount o l st) = tested st /\ ignored (recount o l st) = ignored st /\ matched st <= matched (recount o l st)
  /\ matched (recount o l st) + missed (recount o l st) = matched st + missed st /\ ignored_lines (recount o l st) = ignored_lines st.
Proof.
  unfold recount. revert st. induction l as [|x l IH]; intros st; cbn [fold_left]; [repeat split; lia|].
  match goal with |- context[fold_left _ l ?s] => destruct (IH s) as (A & B & C & D & E) end. cbn [tested matched missed ignored ignored_lines] in *. repeat split; lia || congruence.
Qed.
Lemma count_facts o k t st : tested (count_line o k t st) = tested st + 1 /\ ignored st <= ignored (count_line o k t st) /\ matched st <= matched (count_line o k t st)
  /\ missed st <= missed (count_line o k t st)
  /\ matched (count_line o k t st) + missed (count_line o k t st) + ignored (count_line o k t st) = matched st + missed st + ignored st + 1.
Proof. destruct k; cbn; repeat split; lia. Qed.
Lemma tool_line_facts o cfg w T i t T' k : tool_line o cfg w T i t = Some (T', k) ->
  tested (t_stats T') = tested (t_stats T) + 1 /\ ignored (t_stats T) <= ignored (t_stats T') /\ matched (t_stats T) <= matched (t_stats T')
  /\ matched (t_stats T') + missed (t_stats T') + ignored (t_stats T') = matched (t_stats T) + missed (t_stats T) + ignored (t_stats T) + 1.
Proof.
  unfold tool_line. destruct (line_date w false (t_text T) (t_date T) i) as [[[lt ld] l] dd]. destruct (tool_find _ _ _ _ _ _) as [r|]; [|discriminate].
  intros H. injection H as <- _. cbn [t_stats]. match goal with |- context[count_line o ?k t ?s] => destruct (count_facts o k t s) as (A & B & C & M & D) end.
  rewrite A, D. destruct (Nat.ltb 1 (c_maxlines cfg)).
  - match goal with |- context[recount o ?l ?s] => destruct (recount_facts o l s) as (A1 & B1 & C1 & D1 & E1) end. cbn [tested matched missed ignored] in *. lia.
  - cbn [tested matched missed ignored] in *. lia.
Qed.
Lemma process_facts o cfg w l : forall T T' said, process o cfg w T l = Some (T', said) ->
  tested (t_stats T') = tested (t_stats T) + Z.of_nat (length (filter looked_at l)) /\ length said = length (filter looked_at l)
  /\ ignored (t_stats T) <= ignored (t_stats T') /\ matched (t_stats T) <= matched (t_stats T')
  /\ matched (t_stats T') + missed (t_stats T') + ignored (t_stats T') = matched (t_stats T) + missed (t_stats T) + ignored (t_stats T) + Z.of_nat (length (filter looked_at l)).
Proof.
  induction l as [|i l IH]; intros T T' said; cbn [process filter].
  - intros H. injection H as <- <-. cbn. repeat split; lia.
  - rewrite looked_iff. destruct (shown_input i) as [[i' t]|]; [|apply IH]. destruct (tool_line o cfg w T i' t) as [[T1 k]|] eqn:E; [|discriminate].
    destruct (process o cfg w T1 l) as [[T2 s2]|] eqn:P; [|discriminate]. intros H. cbn in H. injection H as <- <-.
    apply tool_line_facts in E as (A & B & C & D). destruct (IH _ _ _ P) as (A1 & L & B1 & C1 & D1). cbn [length]. rewrite L. repeat split; lia.
Qed.

(** * Single lines: the numbers are those of the lines, and what is printed is complete *)
Definition shown_of (no all : bool) (limit : Z) (l : list text) : list text :=
  if no then [] else if all then l else firstn (Z.to_nat (limit + 1)) l.
Lemma shown_more no all limit l t : -1 <= limit ->
  (if negb no && (all || (Z.of_nat (length l) + 1 <=? limit + 1)) then shown_of no all limit l ++ [t] else shown_of no all limit l) = shown_of no all limit (l ++ [t]).
Proof.
  intros L. unfold shown_of. destruct no; [reflexivity|]. cbn [negb andb]. destruct all; [reflexivity|]. cbn [orb]. destruct (Z.leb_spec (Z.of_nat (length l) + 1) (limit + 1)).
  - rewrite firstn_all2 by lia. rewrite firstn_all2; [reflexivity|]. rewrite app_length. cbn. lia.
  - rewrite firstn_app. replace (Z.to_nat (limit + 1) - length l)%nat with O by lia. now rewrite app_nil_r.
Qed.
Definition agrees (o : opts) (said : list (text * kind)) (st : stats) : Prop :=
  matched st = number KMatched said /\ ignored st = number KIgnored said /\ missed st = number KMissed said /\
  (o_all_matched o = true -> matched_lines st = those KMatched said) /\
  ignored_lines st = shown_of (o_no_ignored o) (o_all_ignored o) (o_limit o) (those KIgnored said) /\
  missed_lines st = shown_of (o_no_missed o) (o_all_missed o) (o_limit o) (those KMissed said).
Lemma number_those k said : number k said = Z.of_nat (length (those k said)).
Proof. unfold number, those. now rewrite map_length. Qed.
Lemma those_snoc k said t k' : those k (said ++ [(t, k')]) = those k said ++ (if match k', k with KMatched, KMatched | KIgnored, KIgnored | KMissed, KMissed => true | _, _ => false end then [t] else []).
Proof. unfold those. rewrite filter_app, map_app. cbn. now destruct k', k. Qed.
Lemma agrees_step o said st k t : -1 <= o_limit o -> agrees o said st -> agrees o (said ++ [(t, k)]) (count_line o k t st).
Proof.
  intros L (A & B & C & D & E & F). unfold agrees. rewrite !number_those, !those_snoc, !app_length. rewrite number_those in A, B, C. destruct k; cbn.
  - repeat split; try lia; rewrite ?app_nil_r; try assumption. intros G. rewrite G, (D G). reflexivity.
  - rewrite B, E. repeat split; try lia; rewrite ?app_nil_r; try assumption. apply shown_more. exact L.
  - rewrite C, F. repeat split; try lia; rewrite ?app_nil_r; try assumption. apply shown_more. exact L.
Qed.
Lemma process_agrees o cfg w l : single_line cfg -> -1 <= o_limit o -> forall T T' before said, agrees o before (t_stats T) -> process o cfg w T l = Some (T', said) ->
  agrees o (before ++ said) (t_stats T').
Proof.
  intros SL L. induction l as [|i l IH]; intros T T' before said A; cbn [process].
  - intros H. injection H as <- <-. now rewrite app_nil_r.
  - destruct (shown_input i) as [[i' t]|]; [|now apply IH]. destruct (tool_line o cfg w T i' t) as [[T1 k]|] eqn:E; [|discriminate].
    destruct (process o cfg w T1 l) as [[T2 s2]|] eqn:P; [|discriminate]. intros H. cbn in H. injection H as <- <-.
    replace (before ++ (t, k) :: s2) with ((before ++ [(t, k)]) ++ s2) by now rewrite <- app_assoc. apply (IH T1); [|exact P].
    unfold tool_line in E. destruct (line_date w false (t_text T) (t_date T) i') as [[[lt ld] l0] dd]. destruct (tool_find _ _ _ _ _ _) as [r|]; [|discriminate].
    replace (Nat.ltb 1 (c_maxlines cfg)) with false in E by (unfold single_line in SL; symmetry; apply Nat.ltb_ge; lia).
    injection E as <- <-. cbn [t_stats]. apply agrees_step; [exact L|]. destruct A as (A & B & C & D & E & F). repeat split; assumption.
Qed.
Lemma agrees_init o : agrees o [] (t_stats tool_init).
Proof. unfold agrees, shown_of. cbn. rewrite !firstn_nil. repeat split; destruct (o_no_ignored o), (o_no_missed o), (o_all_ignored o), (o_all_missed o); reflexivity. Qed.
Lemma printed_agrees o said st k l : agrees o said st -> printed o k st = Some l -> l = those k said.
Proof.
  intros (A & B & C & D & E & F). unfold printed. destruct k.
  - destruct (o_all_matched o) eqn:G; [|discriminate]. destruct (matched st =? 0); cbn; rewrite ?orb_true_r; [discriminate|]. intros H. injection H as <-. now apply D.
  - rewrite E. destruct (o_no_ignored o) eqn:N; [discriminate|]. destruct (ignored st =? 0); [discriminate|]. cbn. destruct ((ignored st <? o_limit o) || o_all_ignored o) eqn:X; [|discriminate].
    intros H. injection H as <-. unfold shown_of. destruct (o_all_ignored o); [reflexivity|]. rewrite orb_false_r in X. apply Z.ltb_lt in X. rewrite number_those in B. apply firstn_all2. lia.
  - rewrite F. destruct (o_no_missed o) eqn:N; [discriminate|]. destruct (missed st =? 0); [discriminate|]. cbn. destruct ((missed st <? o_limit o) || o_all_missed o) eqn:X; [|discriminate].
    intros H. injection H as <-. unfold shown_of. destruct (o_all_missed o); [reflexivity|]. rewrite orb_false_r in X. apply Z.ltb_lt in X. rewrite number_those in C. apply firstn_all2. lia.
Qed.
Lemma printed_some o st k : (match k with KMatched => o_all_matched o | KIgnored => negb (o_no_ignored o) | KMissed => negb (o_no_missed o) end) = true ->
  0 < (match k with KMatched => matched st | KIgnored => ignored st | KMissed => missed st end) ->
  (match k with KMatched => matched st | KIgnored => ignored st | KMissed => missed st end) < o_limit o
   \/ (match k with KMatched => o_all_matched o | KIgnored => o_all_ignored o | KMissed => o_all_missed o end) = true -> printed o k st <> None.
Proof.
  intros A B C. unfold printed. destruct k; rewrite A; cbn [andb negb]; (destruct (Z.eqb_spec (match KMatched with KMatched => 0 | _ => 0 end) 0)); try congruence;
  repeat match goal with |- context[?x =? 0] => destruct (Z.eqb_spec x 0); [lia|] end; cbn [andb negb];
  (destruct C as [C|C]; [apply Z.ltb_lt in C; rewrite C; discriminate|rewrite ?C, ?orb_true_r; try discriminate]); destruct (_ <? _); discriminate.
Qed.
