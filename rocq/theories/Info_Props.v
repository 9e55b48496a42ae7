(** C100, C101: what an action is told about a ban, whatever the actions before it did. *)
From Coq Require Import ZifyBool ZifyNat.
From Verif Require Import Base Ticket_Model Info_Model Info_Spec Info_Proofs.
Local Open Scope string_scope.
Local Open Scope list_scope.
Local Open Scope Z_scope.

(** ** C100 *)
(** Whatever the actions before it read, set or deleted: an action that reads a key which it did not change itself gets
    the value of this ban, as it was at a moment one of the actions of this ban read something; a key that does not exist is a
    KeyError.  (A value read before by another action may be given again.) *)
Theorem C100_told : forall a pre ops w k, Forall proper pre -> proper ops -> one_address a (worlds (concat pre) ++ worlds ops ++ [w]) ->
  ~ In k (touched ops) -> ~ In "ip" (touched ops) ->
  exists w', In w' (worlds (concat pre) ++ worlds ops ++ [w]) /\ snd (step (after pre ops) (Get w k)) = Got (meaning w' k).
Proof.
  intros a pre ops w k P1 P2 A N N'. set (W := worlds (concat pre) ++ worlds ops ++ [w]) in *.
  assert (I : inv (touched ops) W (after pre ops)) by (apply (after_inv a); auto; unfold W; intros x X; rewrite !in_app_iff; auto).
  assert (Iw : In w W) by (unfold W; rewrite !in_app_iff; cbn; auto).
  destruct (get_inv a _ W _ w k I Iw A) as (_ & _ & G). destruct (G N N') as (w' & Iw' & E). exists w'. split; [exact Iw'|]. cbn [step]. destruct (get w k (after pre ops)). cbn [snd] in *. now rewrite E.
Qed.
(** So a value that does not change in the meantime is exactly the one of the ban. *)
Theorem C100_exact : forall a pre ops w k, Forall proper pre -> proper ops -> one_address a (worlds (concat pre) ++ worlds ops ++ [w]) ->
  ~ In k (touched ops) -> ~ In "ip" (touched ops) -> (forall w', In w' (worlds (concat pre) ++ worlds ops) -> meaning w' k = meaning w k) ->
  snd (step (after pre ops) (Get w k)) = Got (meaning w k).
Proof.
  intros a pre ops w k P1 P2 A N N' C. destruct (C100_told a pre ops w k P1 P2 A N N') as (w' & I & ->). f_equal. rewrite app_assoc in I. apply in_app_or in I as [I|[<-|[]]]; [now apply C|reflexivity].
Qed.
(** What it sets itself it reads again, and what it deletes is gone, until it changes it once more. *)
Theorem C100_own : forall pre ops1 k ops2, Forall proper pre -> proper ops1 -> (forall b, ~ In (Reset b) ops2) -> ~ In k (touched ops2) ->
  (exists a, one_address a (worlds (concat pre) ++ worlds ops1)) ->
  (forall v w, snd (step (after pre (ops1 ++ Set_ k v :: ops2)) (Get w k)) = Got (Ok v))
  /\ (forall w, snd (step (after pre (ops1 ++ Del k :: ops2)) (Get w k)) = Got (Err KeyError)).
Proof.
  intros pre ops1 k ops2 P1 P2 NR NT (a & A). split.
  - intros v w. unfold after. rewrite run_app. destruct (run (before_action _) ops1) as [s1 l1]. cbn [run step].
    pose proof (run_raw k v ops2 (set k v s1) NR NT (set_raw k v s1)) as R. destruct (run (set k v s1) ops2) as [s2 l2]. cbn [fst] in *. rewrite (raw_plain_get w k s2 v R). reflexivity.
  - intros w. set (W := worlds (concat pre) ++ worlds ops1) in *.
    assert (I : inv (touched ops1) W (after pre ops1)) by (apply (after_inv a); auto; unfold W; intros x X; rewrite !in_app_iff; auto).
    unfold after in *. rewrite run_app. destruct (run (before_action _) ops1) as [s1 l1]. cbn [fst] in I. cbn [run step].
    pose proof (del_gone (touched ops1) W s1 k I) as D. destruct (del k s1) as [s' ok]. cbn [fst] in D.
    pose proof (run_gone k ops2 s' NR NT D) as R. destruct (run s' ops2) as [s2 l2]. cbn [fst] in *. unfold get. rewrite R. reflexivity.
Qed.
(** The table of the class, and with it all other bans, is never changed. *)
Theorem C100_others : forall pre ops, Forall proper pre -> proper ops -> (exists a, one_address a (worlds (concat pre) ++ worlds ops)) ->
  s_table (after pre ops) = ai_dict.
Proof.
  intros pre ops P1 P2 (a & A). apply (v_table (touched ops) (worlds (concat pre) ++ worlds ops)). apply (after_inv a); auto; intros x X; rewrite !in_app_iff; auto.
Qed.
(** If no action changes anything, all of them see the same value: the one of the first reading. *)
Theorem C100_agree : forall pre ops1 w k v ops2 mid ops3 w', Forall only_reads pre -> only_reads (ops1 ++ ops2) -> Forall only_reads mid -> only_reads ops3 ->
  snd (step (after pre ops1) (Get w k)) = Got (Ok v) ->
  snd (step (after (pre ++ [ops1 ++ Get w k :: ops2] ++ mid) ops3) (Get w' k)) = Got (Ok v).
Proof.
  intros pre ops1 w k v ops2 mid ops3 w' H1 H2 H3 H4 G.
  assert (O1 : only_reads ops1) by (intros o X; apply H2, in_or_app; now left). assert (O2 : only_reads ops2) by (intros o X; apply H2, in_or_app; now right).
  unfold after in *. rewrite !actions_app. set (s0 := fst (run_actions start pre)) in *.
  assert (Im0 : i_immutable (s_info s0) = true) by (now apply actions_reads).
  set (s1 := fst (run (before_action s0) ops1)) in *.
  assert (Im1 : i_immutable (s_info s1) = true) by (unfold s1; rewrite reads_immutable by exact O1; unfold before_action; now rewrite Im0).
  set (s2 := fst (get w k s1)) in *.
  assert (G' : snd (get w k s1) = Ok v) by (cbn [step] in G; destruct (get w k s1); cbn [snd] in *; congruence).
  assert (R2 : raw k s2 = Some (Plain v)) by (now apply get_ok_raw).
  assert (Im2 : i_immutable (s_info s2) = true).
  { pose proof (reads_immutable [Get w k] s1 ltac:(intros o [<-|[]]; eauto)) as X. cbn [run step] in X. unfold s2. destruct (get w k s1). cbn [fst] in *. congruence. }
  destruct (reads_keep k v ops2 s2 O2 R2) as [R3 Im3]. rewrite Im2 in Im3. set (s3 := fst (run s2 ops2)) in *.
  assert (E3 : fst (run_actions s0 [ops1 ++ Get w k :: ops2]) = s3).
  { cbn [run_actions]. rewrite run_app. unfold s3, s2, s1. destruct (run (before_action s0) ops1) as [x1 y1]. cbn [run step fst]. destruct (get w k x1) as [x2 y2]. cbn [fst]. destruct (run x2 ops2). reflexivity. }
  rewrite E3. destruct (actions_keep k v mid s3 H3 R3 Im3) as [R4 Im4]. set (s4 := fst (run_actions s3 mid)) in *.
  destruct (reads_keep k v ops3 (before_action s4) H4) as [R5 _]; [now rewrite before_raw|]. cbn [step]. now rewrite (raw_plain_get w' k _ v R5).
Qed.

(** The demo: two addresses of the world do not change, the ban time does; the first action changes the table. *)
Definition a_ticket (bt : Z) : ticket := with_bantime (Some bt) (new_ticket "192.0.2.1" 1000 ["a"; "b"] 5).
Definition a_world (bt : Z) (m : option (list string * Z)) : world :=
  mkWorld (a_ticket bt) "192.0.2.1" [("user", "root")] "ticket" 600 (fun c _ => match c with CFamily => Ok (VStr "inet4") | _ => Err OtherError end) (Some (fun _ _ => m)) 1 2 3 4.
Example C100_demo :
  let w := a_world 600 None in let w' := a_world 1200 (Some (["x"], 9)) in
  let acts := [[Get w "family"; Get w "ip-host"; Set_ "matches" (VStr "none"); Del "ip"; Get w "matches"; Get w "ip"; Get w' "ipmatches"];
               [Get w' "matches"; Get w' "bantime"; Get w' "ipfailures"; Get w' "nothing"]; [Get w "bantime"]] in
  Forall proper acts /\ one_address "192.0.2.1" (worlds (concat acts))
  /\ snd (run_actions start acts) =
     [[Got (Ok (VStr "inet4")); Got (Err OtherError); Done true; Done true; Got (Ok (VStr "none")); Got (Err KeyError); Got (Err KeyError)];
      [Got (lines ["a"; "b"]); Got (number 1200); Got (number 9); Got (Err KeyError)]; [Got (number 1200)]].
Proof.
  split; [|split].
  - repeat (constructor; [intros X; cbn in X; intuition discriminate|]). constructor.
  - intros x X. cbn in X. repeat (destruct X as [<-|X]; [reflexivity|]). destruct X.
  - vm_compute. reflexivity.
Qed.

(** The merged bans of an address are meant to be asked for once, but nothing is remembered (the attribute is asked for
    by a name that is not the mangled one): one command can get the matches of one answer and the failures
    of another. *)
Theorem C100_mixed_refuted : exists w1 w2 m f, snd (run start [Get w1 "ipmatches"; Get w2 "ipfailures"]) = [Got (lines m); Got (number f)]
  /\ forall w, In w [w1; w2] -> merged_or_own w true <> (m, f).
Proof.
  exists (a_world 600 (Some (["x"], 1))), (a_world 600 (Some (["x"; "y"], 2))), ["x"], 2. split; [vm_compute; reflexivity|].
  intros w [<-|[<-|[]]]; vm_compute; discriminate.
Qed.
(** A reset for a changeable information gives the table of the class away: what is deleted then is gone for all
    bans. *)
Theorem C100_reset_refuted : exists ops, forall w, snd (get w "matches" (mkSys fresh (s_table (fst (run start ops))))) = Err KeyError.
Proof. exists [Reset false; Del "matches"]. intros w. reflexivity. Qed.

(** ** C101: the commands without a ban *)
(** Their time and family are always those of the command itself. *)
Theorem C101_commands : forall cs c i w, nth_error (k_reads c) i = Some (w, "time") \/ nth_error (k_reads c) i = Some (w, "family") ->
  forall s, nth_error (last (snd (run_commands s (cs ++ [c]))) []) i =
    Some (Got (match nth_error (k_reads c) i with Some (_, k) => if eqb k "time" then number (k_time c) else Ok (VStr (k_family c)) | None => Err KeyError end)).
Proof.
  intros cs c i w H s. rewrite commands_last. unfold run_command. cbn [run step].
  set (s1 := set "family" (VStr (k_family c)) (set "time" (VNum (k_time c)) (fst (run_commands s cs)))).
  assert (RF : raw "family" s1 = Some (Plain (VStr (k_family c)))) by apply set_raw.
  assert (RT : raw "time" s1 = Some (Plain (VNum (k_time c)))) by (unfold s1; rewrite set_raw_other by discriminate; apply set_raw).
  destruct (run s1 _) as [s2 l2] eqn:E. cbn [snd skipn]. replace l2 with (snd (run s1 (map (fun p => Get (fst p) (snd p)) (k_reads c)))) by (now rewrite E).
  destruct H as [H|H]; rewrite H; [rewrite (reads_nth (k_reads c) s1 i w _ _ H RT)|rewrite (reads_nth (k_reads c) s1 i w _ _ H RF)]; reflexivity.
Qed.
Example C101_demo : let w := a_world 600 None in
  snd (run_commands start [mkCmd 10 "inet4" [(w, "time"); (w, "family"); (w, "fid")]; mkCmd 20 "inet6" [(w, "family"); (w, "time")]])
  = [[Got (number 10); Got (Ok (VStr "inet4")); Got (Ok (VIP "192.0.2.1"))]; [Got (Ok (VStr "inet6")); Got (number 20)]].
Proof. vm_compute. reflexivity. Qed.
(** All else is remembered for ever: the number of bans in the stop command is the one of the start command. *)
Theorem C101_stale_refuted : exists w1 w2, w_banned w1 = 0 /\ w_banned w2 = 7
  /\ snd (run_commands start [mkCmd 10 "inet4" [(w1, "jail.banned")]; mkCmd 5000 "inet4" [(w2, "jail.banned")]]) = [[Got (number 0)]; [Got (number 0)]].
Proof.
  exists (mkWorld (a_ticket 600) "" [] "" 600 (fun _ _ => Err OtherError) None 0 0 0 0), (mkWorld (a_ticket 600) "" [] "" 600 (fun _ _ => Err OtherError) None 7 7 0 0).
  split; [reflexivity|]. split; [reflexivity|]. vm_compute. reflexivity.
Qed.

Print Assumptions C100_told.
Print Assumptions C100_exact.
Print Assumptions C100_own.
Print Assumptions C100_others.
Print Assumptions C100_agree.
Print Assumptions C100_demo.
Print Assumptions C100_mixed_refuted.
Print Assumptions C100_reset_refuted.
Print Assumptions C101_commands.
Print Assumptions C101_demo.
Print Assumptions C101_stale_refuted.
