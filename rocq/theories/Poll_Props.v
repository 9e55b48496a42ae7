(** C47: which logs are watched, and when they are read, by polling. *)
From Coq Require Import ZifyBool.
From Verif Require Import Base Poll_Model Poll_Spec Poll_Proofs Poll_Proofs2.
Local Open Scope string_scope.
Local Open Scope list_scope.
Local Open Scope Z_scope.

Definition ok : reading := Lines [true].
Definition seen (n : Z) : outcome := St (n, 7, n).
Definition look (l : list (string * outcome)) (p : string) : outcome := match dget p l with Some o => o | None => OSErr end.
(** Two logs; one of them rotated away for some passes and back *)
Definition demo_ops : list op :=
  [Add "a"; Add "b"; Pass (look [("a", seen 1); ("b", seen 1)]) (fun _ => ok); Pass (look [("a", seen 1); ("b", seen 2)]) (fun _ => ok);
   Pass (look [("b", seen 2)]) (fun _ => ok); Pass (look [("b", seen 2)]) (fun _ => ok); Del "b"; Pass (look [("a", seen 3)]) (fun _ => ok)].
Example demo_answers : snd (run init demo_ops) = [Done; Done; Polled ["a"; "b"]; Polled ["b"]; Polled []; Polled []; Done; Polled ["a"]].
Proof. vm_compute. reflexivity. Qed.
Lemma demo_system : Forall system_errors demo_ops.
Proof. unfold demo_ops. repeat (apply Forall_cons); try apply Forall_nil; cbn; auto; intros p; unfold look; cbn; repeat (destruct (eqb _ _)); discriminate. Qed.

(** C47: what is watched is what the history says: the logs added, not removed since, and not failing 51 looks in a row. *)
Theorem C47_watched ops s ans : Forall system_errors ops -> run init ops = (s, ans) ->
  NoDup (logs s) /\ forall p, In p (logs s) <-> watched (history p Absent ops ans).
Proof.
  intros F R. destruct (run_spec _ _ _ _ inv_init F R) as (I & _ & V). split; [apply I|]. intros p.
  rewrite (view_logs _ _ I), V. reflexivity.
Qed.
Example C47_watched_demo : history "a" Absent demo_ops (snd (run init demo_ops)) = Watched (Some (3, 7, 3)) 0 /\
  history "b" Absent demo_ops (snd (run init demo_ops)) = Absent /\ logs (fst (run init demo_ops)) = ["a"].
Proof. vm_compute. auto. Qed.

(** C47: a pass of a filter that is not idle notices exactly the logs that have changed since they were last looked at, in their order, and
    reads them; all of them, unless an error ends the pass or the filter falls idle in it. An idle filter does nothing. *)
Theorem C47_pass ops s ans stats reads s' a : Forall system_errors ops -> run init ops = (s, ans) -> (forall p, stats p <> OtherErr) ->
  step s (Pass stats reads) = (s', a) ->
  if idle s then s' = s /\ a = Asleep
  else exists keep q r, filter keep (logs s) = q ++ r /\
    (forall p, In p (q ++ r) <-> changed (history p Absent ops ans) (stats p)) /\
    ((a = Polled q /\ (idle s' = false -> r = []) /\ forall p, In p q -> reads p <> Raise) \/
     (a = Failed q /\ exists k p, q = k ++ [p] /\ reads p = Raise)).
Proof.
  intros F R So E. destruct (run_spec _ _ _ _ inv_init F R) as (I & _ & V). destruct (step_spec _ (Pass stats reads) _ _ I So E) as (_ & _ & P).
  destruct (idle s); auto. destruct P as (keep & q & r & E1 & B & C). exists keep, q, r. split; auto. split; auto.
  intros p. rewrite B. change Absent with (view init p). rewrite <- V. split; [tauto|]. intros H. split; auto.
  apply (view_logs _ _ I). destruct H as (l & m & st & -> & _). discriminate.
Qed.
Example C47_pass_demo : let (s, ans) := run init (firstn 3 demo_ops) in idle s = false /\ snd (step s (Pass (look [("a", seen 1); ("b", seen 2)]) (fun _ => ok))) = Polled ["b"] /\
  changed (history "b" Absent (firstn 3 demo_ops) ans) (seen 2) /\ ~ changed (history "a" Absent (firstn 3 demo_ops) ans) (seen 1).
Proof.
  vm_compute. split; auto. split; auto. split.
  - exists (Some (1, 7, 1)), 0, (2, 7, 2). repeat split; auto. intros H. discriminate.
  - intros (l & m & st & H1 & H2 & H3). injection H1 as <- <-. injection H2 as <-. now apply H3.
Qed.

(** C47: a log that was just seen, or just added, stays watched over 50 failing looks in a row and is dropped at the 51st. *)
Theorem C47_patience ops s ans p l more s' ans' : Forall system_errors ops -> run init ops = (s, ans) -> history p Absent ops ans = Watched l 0 ->
  Forall system_errors more -> Forall (fun o => pass o /\ match o with Pass stats _ => no_answer (stats p) | _ => True end) more ->
  run s more = (s', ans') -> ~ In Asleep ans' ->
  (In p (logs s') <-> (length more <= 50)%nat).
Proof.
  intros F R H F2 G R2 NA. destruct (run_spec _ _ _ _ inv_init F R) as (I & _ & V). destruct (run_spec _ _ _ _ I F2 R2) as (I2 & L & V2).
  rewrite (view_logs _ _ I2), V2, V. change (view init p) with Absent. rewrite H, history_misses by (auto; lia).
  destruct (0 + Z.of_nat (length more) <=? 50) eqn:E; split; intros; try lia; try discriminate; try congruence.
Qed.
Example C47_patience_demo : let s := fst (run init [Add "a"]) in let more n := repeat (Pass (look []) (fun _ => ok)) n in
  logs (fst (run s (more 50%nat))) = ["a"] /\ logs (fst (run s (more 51%nat))) = [] /\ In "a" (logs (fst (run s (more 30%nat ++ [Pass (look [("a", seen 1)]) (fun _ => ok)] ++ more 50%nat)))).
Proof. vm_compute. auto. Qed.

(** C47: the filter does not fall idle before 100 errors: looks, lines or readings that failed. *)
Theorem C47_awake paths ops s ans : Forall system_errors ops -> run init ops = (s, ans) ->
  Forall (fun o => match o with Add p => In p paths | SetIdle b => b = false | _ => True end) ops -> total_failing paths ops < 100 ->
  idle s = false.
Proof.
  intros F R G T. apply (run_few paths ops init 0 inv_init F) in R; auto.
  - apply R.
  - intros p [].
  - split; cbn; auto. lia.
Qed.
Example C47_awake_demo : total_failing ["a"] (Add "a" :: repeat (Pass (look [("a", seen 1)]) (fun _ => Lines [false])) 99) = 99 /\
  idle (fst (run init (Add "a" :: repeat (Pass (look [("a", seen 1)]) (fun _ => Lines [false])) 99))) = false /\
  idle (fst (run init (Add "a" :: repeat (Pass (look [("a", seen 1)]) (fun _ => Lines (repeat false 100))) 1))) = true.
Proof. vm_compute. auto. Qed.

(** C47: while a log stays as it was last looked at (the same time of modification, inode and size) it is not read, however often it is polled. *)
Theorem C47_unchanged ops s ans p st m more s' ans' a : Forall system_errors ops -> run init ops = (s, ans) ->
  history p Absent ops ans = Watched (Some st) m -> Forall system_errors more ->
  Forall (fun o => pass o /\ match o with Pass stats _ => stats p = St st | _ => True end) more -> run s more = (s', ans') ->
  In a ans' -> ~ read_in a p.
Proof.
  intros F R H F2 G R2. destruct (run_spec _ _ _ _ inv_init F R) as (I & _ & V). eapply unread; eauto.
  exists m. rewrite V. exact H.
Qed.
Example C47_unchanged_demo : let (s, ans) := run init (firstn 3 demo_ops) in history "a" Absent (firstn 3 demo_ops) ans = Watched (Some (1, 7, 1)) 0 /\
  snd (run s [Pass (look [("a", seen 1)]) (fun _ => ok); Pass (look [("a", seen 1)]) (fun _ => ok)]) = [Polled []; Polled []].
Proof. vm_compute. auto. Qed.

(** C47, what fails: a change that was noticed is read at once or later. An exception while another log is read ends the pass, and what
    was noticed is forgotten: the log is not read before it changes again. *)
Theorem C47_noticed_refuted : exists ops s ans p st, Forall system_errors ops /\ run init ops = (s, ans) /\
  changed (history p Absent (removelast ops) (removelast ans)) (St st) /\
  (exists stats reads, last ops (Del p) = Pass stats reads /\ stats p = St st /\ reads p <> Raise) /\
  (forall a, In a ans -> ~ read_in a p) /\ idle s = false /\
  forall more s' ans' a, Forall system_errors more -> Forall (fun o => pass o /\ match o with Pass stats _ => stats p = St st | _ => True end) more ->
  run s more = (s', ans') -> In a ans' -> ~ read_in a p.
Proof.
  pose (stats := look [("a", seen 1); ("b", seen 1)]). pose (reads := fun p : string => if eqb p "a" then Raise else ok).
  set (ops := [Add "a"; Add "b"; Pass stats reads]).
  exists ops, (fst (run init ops)), (snd (run init ops)), "b"%string, (1, 7, 1).
  assert (F : Forall system_errors ops).
  { unfold ops, stats. repeat (apply Forall_cons); try apply Forall_nil; cbn; auto. intros p. unfold look. cbn. repeat (destruct (eqb _ _)); discriminate. }
  split; auto. split; [apply surjective_pairing|]. split.
  { exists None, 0, (1, 7, 1). split; [vm_compute; reflexivity|]. split; auto. discriminate. }
  split. { exists stats, reads. split; [reflexivity|]. split; [vm_compute; reflexivity|]. vm_compute. discriminate. }
  split. { intros a Ha. assert (E : snd (run init ops) = [Done; Done; Failed ["a"]]) by (vm_compute; reflexivity). rewrite E in Ha.
    destruct Ha as [<-|[<-|[<-|[]]]]; cbn; auto. intros [H|[]]. discriminate. }
  split; [vm_compute; reflexivity|].
  intros more s' ans' a F2 G R. eapply (C47_unchanged ops); eauto using surjective_pairing. vm_compute. reflexivity.
Qed.
(** The same when the filter falls idle within the pass, and after it wakes up again *)
Theorem C47_fell_idle_refuted : exists ops ans s p, run init ops = (s, ans) /\ Forall system_errors ops /\ In (Polled ["a"]) ans /\ In p (logs s) /\ idle s = false /\
  (forall a, In a ans -> ~ read_in a p) /\ (exists m st, history p Absent ops ans = Watched (Some st) m).
Proof.
  pose (stats := look [("a", seen 1); ("b", seen 1)]). pose (reads := fun p : string => if eqb p "a" then Lines (repeat false 100) else ok).
  set (ops := [Add "a"; Add "b"; Pass stats reads; SetIdle false; Pass stats reads]).
  exists ops, (snd (run init ops)), (fst (run init ops)), "b"%string.
  assert (E : run init ops = (fst (run init ops), [Done; Done; Polled ["a"]; Done; Polled []])) by (vm_compute; reflexivity).
  split; [apply surjective_pairing|]. split.
  { unfold ops, stats. repeat (apply Forall_cons); try apply Forall_nil; cbn; auto; intros p; unfold look; cbn; repeat (destruct (eqb _ _)); discriminate. }
  rewrite E. cbn [snd]. split; [do 2 right; now left|]. split; [vm_compute; auto|]. split; [vm_compute; reflexivity|]. split.
  - intros a [<-|[<-|[<-|[<-|[<-|[]]]]]]; cbn; auto. intros [H|[]]. discriminate.
  - exists 0, (1, 7, 1). vm_compute. reflexivity.
Qed.
(** Nor is a missing log only its own loss: two missing logs make the filter idle before either is dropped, and the others are no longer read. *)
Theorem C47_missing_refuted : exists ops s, Forall system_errors ops /\ fst (run init ops) = s /\ idle s = true /\ logs s = ["a"; "b"; "c"] /\
  forall stats reads, step s (Pass stats reads) = (s, Asleep).
Proof.
  set (ops := [Add "a"; Add "b"; Add "c"] ++ repeat (Pass (look [("c", seen 1)]) (fun _ => Lines [])) 50).
  exists ops, (fst (run init ops)). split.
  { apply Forall_app. split; [repeat constructor|]. apply Forall_forall. intros o H. apply repeat_spec in H as ->. intros p. unfold look. cbn. destruct (eqb _ _); discriminate. }
  split; [reflexivity|]. assert (E : idle (fst (run init ops)) = true) by (vm_compute; reflexivity).
  split; [exact E|]. split; [vm_compute; reflexivity|]. intros stats reads. unfold step. now rewrite E.
Qed.
(** An error that is not one of the system ends the pass: what was noticed before it in the same pass is lost as well. *)
Theorem C47_other_refuted : exists ops s ans, run init ops = (s, ans) /\ ans = [Done; Done; NotPolled; Polled ["b"]] /\
  exists stats reads, nth 2 ops (Del "a") = Pass stats reads /\ stats "a"%string = seen 1 /\ idle s = false.
Proof.
  pose (stats := look [("a", seen 1); ("b", OtherErr)]). set (ops := [Add "a"; Add "b"; Pass stats (fun _ => ok); Pass (look [("a", seen 1); ("b", seen 1)]) (fun _ => ok)]).
  exists ops, (fst (run init ops)), (snd (run init ops)). split; [apply surjective_pairing|]. split; [vm_compute; reflexivity|].
  exists stats, (fun _ => ok). repeat split.
Qed.

Print Assumptions C47_watched.
Print Assumptions C47_pass.
Print Assumptions C47_patience.
Print Assumptions C47_awake.
Print Assumptions C47_unchanged.
Print Assumptions C47_noticed_refuted.
Print Assumptions C47_fell_idle_refuted.
Print Assumptions C47_missing_refuted.
Print Assumptions C47_other_refuted.
