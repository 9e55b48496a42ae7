(** Property C57: the lines of the buffer that a match takes. *)
From Verif Require Import Base Text Lines_Model Lines_Spec Lines_Proofs.
From Coq Require Import Permutation.
Local Open Scope nat_scope.

(** A match that is not empty takes exactly the lines it touches, except those moved back because
    their text is that of a skipped line; these and all others remain, in order. *)
Theorem C57_lines p org f : search p (lines_buf org) org = Some f -> 1 < length org -> no_break org ->
  m_start (fd_match f) < m_end (fd_match f) <= length (lines_buf org) ->
  p (lines_buf org) = Some (fd_match f) /\
  exists before covered behind skipped, org = before ++ covered ++ behind /\ touched (m_start (fd_match f)) (m_end (fd_match f)) before covered behind /\
    merge (fd_matched f) skipped covered /\ fd_unmatched f = before ++ skipped ++ behind /\ part (map shown skipped) (skipped_lines (fd_match f)).
Proof.
  intros E L B S. split; [eapply search_match; eauto|]. destruct (search_spec p org f E L B S) as (a & b & c & k & H1 & H2 & H3 & H4 & H5 & _). exists a, b, c, k. auto.
Qed.
(** If <SKIPLINES> captured whole lines of those, lines with these texts remain, and only these. *)
Theorem C57_skipped p org f ts : search p (lines_buf org) org = Some f -> 1 < length org -> no_break org ->
  m_start (fd_match f) < m_end (fd_match f) <= length (lines_buf org) -> skips (fd_match f) ts ->
  exists before covered behind skipped, org = before ++ covered ++ behind /\ touched (m_start (fd_match f)) (m_end (fd_match f)) before covered behind /\
    merge (fd_matched f) skipped covered /\ fd_unmatched f = before ++ skipped ++ behind /\ (part ts (map shown covered) -> map shown skipped = ts).
Proof.
  intros E L B S Sk. apply skipped_spec in Sk. destruct (search_spec p org f E L B S) as (a & b & c & k & H1 & H2 & H3 & H4 & H5 & H6). rewrite Sk in *. exists a, b, c, k. auto.
Qed.
(** No line is lost and none doubled. *)
Theorem C57_partition p org f : search p (lines_buf org) org = Some f -> no_break org ->
  m_start (fd_match f) < m_end (fd_match f) <= length (lines_buf org) -> Permutation (fd_matched f ++ fd_unmatched f) org.
Proof.
  intros E B S. destruct (Nat.le_gt_cases (length org) 1) as [L|L].
  - destruct (search_one _ _ _ _ E L) as (-> & -> & _). now rewrite app_nil_r.
  - destruct (search_spec p org f E L B S) as (a & b & c & k & -> & _ & M & -> & _). apply merge_perm in M. rewrite <- M.
    rewrite <- (app_assoc (fd_matched f)). rewrite (app_assoc (fd_matched f) a), (Permutation_app_comm (fd_matched f) a), <- app_assoc. reflexivity.
Qed.
(** Of a buffer of one line nothing remains. *)
Theorem C57_single p buf l f : search p buf [l] = Some f -> fd_matched f = [l] /\ fd_unmatched f = [] /\ p buf = Some (fd_match f).
Proof. intros E. apply (search_one _ _ _ _ E). cbn. auto. Qed.
(** Nothing found: no lines. *)
Theorem C57_none p buf org : search p buf org = None <-> p buf = None.
Proof. unfold search. destruct (p buf); split; congruence. Qed.

(** ** an example *)
Definition ex_org : list line := [ln "o"; ln "a"; ln "x"; ln "b"; ln "c"].
Definition ex_m : rmatch := mkM 2 7 [] [Some (tx "x" ++ [nl])].
Example C57_demo : exists f, search (fun _ => Some ex_m) (lines_buf ex_org) ex_org = Some f /\ no_break ex_org /\ skips (fd_match f) [tx "x"] /\
  m_start (fd_match f) < m_end (fd_match f) <= length (lines_buf ex_org) /\ fd_matched f = [ln "a"; ln "b"] /\ fd_unmatched f = [ln "o"; ln "x"; ln "c"].
Proof.
  eexists. split; [vm_compute; reflexivity|]. split; [|split; [|vm_compute; repeat split; lia]].
  - repeat constructor; intros I; vm_compute in I; destruct I as [I|[]]; discriminate.
  - split; [|exists [[tx "x"]]; split; reflexivity]. constructor; [|constructor]. intros c [<-|[]]. reflexivity.
Qed.

(** ** Findings *)
(** An empty match at an empty line doubles this line; one at the start of the buffer takes all lines. *)
Theorem C57_empty_match_refuted :
  (exists f, search (fun _ => Some (mkM 2 2 [] [])) (lines_buf [ln "a"; ln ""; ln "b"]) [ln "a"; ln ""; ln "b"] = Some f /\ fd_matched f = [] /\ fd_unmatched f = [ln "a"; ln ""; ln ""; ln "b"]) /\
  (exists f, search (fun _ => Some (mkM 0 0 [] [])) (lines_buf [ln "a"; ln "b"]) [ln "a"; ln "b"] = Some f /\ fd_matched f = [ln "a"; ln "b"] /\ fd_unmatched f = []).
Proof. split; eexists; (split; [vm_compute; reflexivity|split; reflexivity]). Qed.
(** Of lines with the same text but for the time stamp the wrong one may remain: here the match
    begins with the first line and skips the second. *)
Definition at_ (t s : string) : line := ([], tx t, tx s).
Theorem C57_same_text_refuted : exists f, search (fun _ => Some (mkM 0 5 [] [Some (tx "a" ++ [nl])])) (lines_buf [at_ "12:00" "a"; at_ "12:01" "a"; at_ "12:02" "b"]) [at_ "12:00" "a"; at_ "12:01" "a"; at_ "12:02" "b"] = Some f /\
  fd_matched f = [at_ "12:01" "a"; at_ "12:02" "b"] /\ fd_unmatched f = [at_ "12:00" "a"].
Proof. eexists. split; [vm_compute; reflexivity|]. split; reflexivity. Qed.
(** A skipped line with a form feed in it is taken by the match. *)
Definition ff : line := ([], [], tx "x" ++ ["012"%char] ++ tx "y").
Theorem C57_form_feed_refuted : exists f, search (fun _ => Some (mkM 0 7 [] [Some (shown ff ++ [nl])])) (lines_buf [ln "a"; ff; ln "b"]) [ln "a"; ff; ln "b"] = Some f /\
  fd_matched f = [ln "a"; ff; ln "b"] /\ fd_unmatched f = [].
Proof. eexists. split; [vm_compute; reflexivity|]. split; reflexivity. Qed.

Print Assumptions C57_lines.
Print Assumptions C57_skipped.
Print Assumptions C57_partition.
Print Assumptions C57_single.
Print Assumptions C57_none.
Print Assumptions C57_demo.
Print Assumptions C57_empty_match_refuted.
Print Assumptions C57_same_text_refuted.
Print Assumptions C57_form_feed_refuted.
