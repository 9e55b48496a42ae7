(** C27: the search for a time in a log. *)
From Verif Require Import Base Text LogFile_Model LogSeek_Model LogSeek_Spec LogSeek_Proofs LogSeek_Proofs2.
From Coq Require Import Lia List ZifyBool ZifyNat.
Local Open Scope nat_scope.
Import ListNotations.

(** If the times in a log do not go back, no line that is not older than [date] is before the place found. *)
Theorem C27_safe : forall d dt date fuel start p, ordered d dt ->
  seek_to_time d dt date fuel start = Some p ->
  start <= p /\ forall q t, timed d dt q t -> start <= q < p -> (t < date)%Z.
Proof.
  intros d dt date fuel start p O H. unfold seek_to_time in H.
  destruct d as [|c d'] eqn:E; [injection H as <-; split; [lia|intros; lia]|]. rewrite <- E in *.
  apply (loop_safe d dt date fuel start) in H; [destruct H; auto|exact O| |cbn; lia].
  intros q t _ X. cbn in X. lia.
Qed.
(** The place found is the beginning of a line, or the end of the file, or the place did not change. *)
Theorem C27_place : forall d dt date fuel start p, start <= length d ->
  seek_to_time d dt date fuel start = Some p -> p = start \/ begins d p \/ p = length d.
Proof.
  intros d dt date fuel start p L H. unfold seek_to_time in H.
  destruct d as [|c d'] eqn:E; [injection H as <-; auto|]. rewrite <- E in *.
  apply (loop_place d dt date fuel start) in H; auto; cbn; [now left|]. intros x X. injection X as <-. exact L.
Qed.
(** The search ends, for every file and every date detector, after at most 12 turns per byte. *)
Theorem C27_ends : forall d dt date start, exists p, seek_to_time d dt date (12 * (length d + 1)) start = Some p.
Proof.
  intros d dt date start. unfold seek_to_time. destruct d as [|c d'] eqn:E; [eauto|]. rewrite <- E.
  destruct (loop d dt date (12 * (length d + 1)) (mkSearch start (length d) (Some start) None 3)) as [p|] eqn:Lp; [eauto|].
  apply loop_ends in Lp; [destruct Lp|]. unfold measure. cbn [maxp minp movecntr]. 
  change (phase d dt date (mkSearch start (length d) (Some start) None 3)) with 2. lia.
Qed.
(** If all lines have the same length and a time, and the times do not go back, the place found is exactly the first line
    that is not older than [date]. *)
Theorem C27_exact : forall lines L dt date (time : nat -> Z), 2 <= L ->
  (forall x, In x lines -> length x = L /\ exists y, x = y ++ [LF] /\ ~ In LF y) ->
  (forall k x, nth_error lines k = Some x -> dt x = Match (Some (time k))) ->
  (forall i j, i <= j < length lines -> (time i <= time j)%Z) ->
  exists k, seek_to_time (concat lines) dt date (12 * (length (concat lines) + 1)) 0 = Some (length (concat (firstn k lines)))
    /\ k <= length lines /\ (forall i, i < k -> (time i < date)%Z) /\ (forall i, k <= i < length lines -> (date <= time i)%Z).
Proof.
  intros lines L dt date time L2 Hx Hdt mono.
  destruct (C27_ends (concat lines) dt date 0) as [p Hp]. rewrite Hp.
  assert (A : answer lines L date time p).
  { unfold seek_to_time in Hp. destruct (concat lines) as [|c d'] eqn:E.
    - injection Hp as <-. exists 0. split; [reflexivity|].
      assert (length lines * L = 0). { rewrite <- (concat_len L lines), E; [reflexivity|]. intros x X. now apply Hx. }
      split; [nia|]. split; [lia|]. intros k K. nia.
    - rewrite <- E in *. eapply (loop_state lines L dt date time); eauto.
      + intros x X. now apply Hx.
      + intros x X. now apply Hx.
      + eapply start_state; eauto; intros x X; now apply Hx. }
  destruct A as (k & -> & (B1 & B2 & B3)). exists k. split; [|split; [lia|auto]].
  f_equal. rewrite (concat_len L), firstn_length_le by lia || (intros x X; apply Hx; rewrite <- (firstn_skipn k lines); apply in_or_app; now left).
  reflexivity.
Qed.

(** ** Cases: the first character of a line is its time *)
Definition dt_first (l : bytes) : stamp :=
  match l with
  | c :: _ => let z := Z.of_N (N_of_ascii c) in if (48 <=? z)%Z && (z <? 58)%Z then Match (Some (z - 48)%Z) else NoMatch
  | [] => NoMatch
  end.
Definition log_of (l : list string) : list bytes := map (fun s => list_ascii_of_string s ++ [LF]) l.
Definition demo_lines : list bytes := log_of ["1ab"; "1cd"; "2ef"; "4gh"; "4ij"; "5kl"; "7mn"]%string.
Theorem C27_demo : exists time : nat -> Z,
  (forall x, In x demo_lines -> length x = 4 /\ exists y, x = y ++ [LF] /\ ~ In LF y) /\
  (forall k x, nth_error demo_lines k = Some x -> dt_first x = Match (Some (time k))) /\
  (forall i j, i <= j < length demo_lines -> (time i <= time j)%Z) /\
  seek_to_time (concat demo_lines) dt_first 3 500 0 = Some 12.
Proof.
  exists (fun k => nth k [1; 1; 2; 4; 4; 5; 7]%Z 0%Z). split; [|split; [|split; [|vm_compute; reflexivity]]].
  - intros x H. cbn [demo_lines log_of map In] in H.
    repeat (destruct H as [<-|H]; [split; [reflexivity|]; eexists; split; [reflexivity|]; vm_compute; intuition discriminate|]). destruct H.
  - intros k x H. do 7 (destruct k as [|k]; [injection H as <-; reflexivity|]). destruct k; discriminate.
  - intros i j H. cbn [demo_lines log_of map length] in H. do 7 (destruct j as [|j]; [do 7 (destruct i as [|i]; [cbn; lia|]); lia|]). lia.
Qed.
(** lines without time, of different lengths *)
Definition demo_mixed : bytes := concat (log_of ["1 first"; "x"; ""; "2 long long long line"; "  more"; "3"; "y"; "5 new"; "6"; ""]%string).
Theorem C27_demo_mixed : seek_to_time demo_mixed dt_first 5 500 0 = Some 42 /\ timed demo_mixed dt_first 44 5.
Proof.
  split; [vm_compute; reflexivity|]. split.
  - split; [vm_compute; lia|]. right. vm_compute. reflexivity.
  - eexists (list_ascii_of_string "5 new" ++ [LF]), _. split; [vm_compute; reflexivity|]. split; [reflexivity|].
    left. eexists. split; [reflexivity|]. vm_compute. intuition discriminate.
Qed.
(** With lines of different lengths the place found can be far before the first line that is not older: here only the first
    of nine older lines is skipped, all lines have a time. *)
Definition long_log : list bytes :=
  log_of ["1"; "1"; "1"; "1"; "1"; "1"; "1"; "1"; "1 a very long line, much longer than all others together, you see"; "9"]%string.
Theorem C27_exact_refuted :
  (forall x, In x long_log -> exists t, dt_first x = Match (Some t)) /\
  seek_to_time (concat long_log) dt_first 5 (12 * (length (concat long_log) + 1)) 0 = Some 2 /\
  timed (concat long_log) dt_first 82 9 /\ forall q t, timed (concat long_log) dt_first q t -> q < 82 -> t = 1%Z.
Proof.
  split; [|split; [vm_compute; reflexivity|split]].
  - intros x H. cbn [long_log log_of map In] in H. repeat (destruct H as [<-|H]; [eexists; vm_compute; reflexivity|]). destruct H.
  - split; [split; [vm_compute; lia|right; vm_compute; reflexivity]|].
    exists (list_ascii_of_string "9" ++ [LF]), []. split; [vm_compute; reflexivity|]. split; [reflexivity|]. left. eexists. split; [reflexivity|]. vm_compute. intuition discriminate.
  - intros q t [[L B] (x & rest & E & D & C)] Lq.
    assert (X : exists c x', x = c :: x' /\ nth_error (concat long_log) q = Some c).
    { destruct x as [|c x']; [discriminate|]. exists c, x'. split; [reflexivity|].
      replace q with (q + 0) by lia. rewrite <- nth_skipn, E. reflexivity. }
    destruct X as (c & x' & -> & N).
    assert (F : forallb (fun q => (negb (q =? 0) && negb (match nth_error (concat long_log) (q - 1) with Some c => Ascii.eqb c LF | None => false end))
       || match nth_error (concat long_log) q with Some c => Ascii.eqb c "1" | None => false end) (seq 0 82) = true) by (vm_compute; reflexivity).
    rewrite forallb_forall in F. specialize (F q). rewrite in_seq in F. specialize (F ltac:(lia)). rewrite N in F.
    assert (Bq : negb (q =? 0) && negb (match nth_error (concat long_log) (q - 1) with Some c => Ascii.eqb c LF | None => false end) = false).
    { destruct B as [->|B]; [reflexivity|]. rewrite B, Ascii.eqb_refl. apply andb_false_r. }
    rewrite Bq in F. cbn [orb] in F. apply Ascii.eqb_eq in F. subst c. vm_compute in D. congruence.
Qed.
(** The place found can be the end of an incomplete last line: what is written to it later is then read as a line. *)
Theorem C27_inside_refuted : exists d date p, seek_to_time d dt_first date 100 0 = Some p /\ p = length d /\ ~ In LF d /\ 0 < p.
Proof.
  exists (list_ascii_of_string "1 incompl"), 5%Z, 9.
  split; [vm_compute; reflexivity|]. split; [reflexivity|]. split; [vm_compute; intuition discriminate|lia].
Qed.

Print Assumptions C27_safe.
Print Assumptions C27_place.
Print Assumptions C27_ends.
Print Assumptions C27_exact.
Print Assumptions C27_demo.
Print Assumptions C27_demo_mixed.
Print Assumptions C27_exact_refuted.
Print Assumptions C27_inside_refuted.
