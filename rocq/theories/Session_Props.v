(** C50: the lines of a session are merged into the failure they belong to. *)
From Verif Require Import Base Text IPAddr_Model Utils_Model Lines_Model Session_Model Session_Spec Session_Proofs Session_Proofs2.
From Coq Require Import List.
Local Open Scope string_scope.
Local Open Scope list_scope.

Lemma verdict_of os o id : few_sessions (os ++ [o]) -> proper_groups (os ++ [o]) -> session_of o = Some id ->
  right_verdict o (before id os (s_now o)) (snd (see (see_all os) o)).
Proof.
  intros (ids & L & H) W S. assert (I : inv ids os (see_all os)).
  { apply inv_run; auto; [intros o' i J; apply H; apply in_or_app; now left|intros o' J; apply W; apply in_or_app; now left]. }
  refine (proj2 (inv_step ids os _ o L _ _ I) id S); [intros i; apply H|apply W]; apply in_or_app; right; now left.
Qed.
Lemma no_id_b es : no_idb es = true <-> no_id es.
Proof. unfold no_idb, no_id. destruct (latest "fid" es), (latest "ip4" es), (latest "ip6" es), (latest "dns" es); split; intuition discriminate. Qed.

(** Whatever the history of all sessions, a match that names a session is quiet exactly if it is
    marked so, given the lines of that session so far. *)
Theorem C50_quiet os o id : few_sessions (os ++ [o]) -> proper_groups (os ++ [o]) -> session_of o = Some id ->
  snd (see (see_all os) o) = VQuiet <-> quiet (s_event o) (before id os (s_now o)) = true.
Proof.
  intros F W S. pose proof (verdict_of os o id F W S) as R. unfold right_verdict in R. cbn zeta in R. destruct (quiet _ _); [tauto|].
  split; [|discriminate]. intros E. rewrite E in R. destruct (no_idb _); [discriminate|]. destruct (who _ _ _); [|discriminate]. destruct R as (f & R & _). discriminate.
Qed.
(** It waits exactly if it is not quiet and no line of the session has told whose it is. *)
Theorem C50_waits os o id : few_sessions (os ++ [o]) -> proper_groups (os ++ [o]) -> session_of o = Some id ->
  snd (see (see_all os) o) = VWait <-> quiet (s_event o) (before id os (s_now o)) = false /\ no_id (s_event o :: before id os (s_now o)).
Proof.
  intros F W S. rewrite <- no_id_b. pose proof (verdict_of os o id F W S) as R. unfold right_verdict in R. cbn zeta in R. destruct (quiet _ _); [rewrite R; intuition discriminate|].
  destruct (no_idb _); [tauto|]. split; [|intros [_ ?]; discriminate]. intros E. rewrite E in R. destruct (who _ _ _); [|discriminate]. destruct R as (f & R & _). discriminate.
Qed.
(** Otherwise the failure is counted for whom the session's latest fields name, with those fields,
    the users named in the session, and its lines since the last one reported, in order. *)
Theorem C50_found os o id : few_sessions (os ++ [o]) -> proper_groups (os ++ [o]) -> session_of o = Some id ->
  let e := s_event o in let es := before id os (s_now o) in
  quiet e es = false -> ~ no_id (e :: es) ->
  match who (s_raw o) (s_dns o) (fun k => latest k (e :: es)) with
  | None => snd (see (see_all os) o) = VError
  | Some ids => exists f, snd (see (see_all os) o) = VFound ids f /\
      (forall k, ordinary k -> field (mkE (f_groups f) []) k = latest k (e :: es)) /\
      (es <> [] \/ presentb e "mlfforget" = false -> f_users f = users (e :: es)) /\
      f_matches f = collected (e :: es)
  end.
Proof.
  intros F W S e es Q N. pose proof (verdict_of os o id F W S) as R. unfold right_verdict in R. cbn zeta in R. fold e in R. fold es in R. rewrite Q in R.
  destruct (no_idb (e :: es)) eqn:Ni; [apply no_id_b in Ni; contradiction|]. destruct (who _ _ _); [|exact R].
  destruct R as (f & R1 & R2 & R3). exists f. split; [exact R1|]. split; [intros k O; rewrite field_gtext; now apply R2|exact R3].
Qed.
(** Without a session, the match alone counts and the sessions are left alone. *)
Theorem C50_single os o : session_of o = None -> let e := s_event o in
  fst (see (see_all os) o) = see_all os /\
  (no_id [e] -> snd (see (see_all os) o) = VNone) /\
  (~ no_id [e] -> match who (s_raw o) (s_dns o) (field e) with
                  | None => snd (see (see_all os) o) = VError
                  | Some ids => exists f, snd (see (see_all os) o) = VFound ids f /\ f_groups f = e_groups e /\ f_matches f = e_lines e
                  end).
Proof.
  intros S e. split; [now apply see_none|]. unfold session_of in S. rewrite field_gtext in S. unfold see, take_match. fold e. fold e in S. rewrite S. cbn [snd].
  pose proof (identify_spec (s_raw o) (s_dns o) false (mkFail (e_groups e) [] (e_lines e) [] false None)) as I. cbn zeta in I. cbn [f_groups] in I.
  assert (Fd : forall k, gtext (e_groups e) k = field e k) by (intros; symmetry; apply field_gtext). rewrite !Fd in I.
  rewrite <- no_id_b. unfold no_idb. cbn [latest].
  assert (D : (same_but_ip (mkFail (e_groups e) [] (e_lines e) [] false None) (snd (identify (s_raw o) (s_dns o) false (mkFail (e_groups e) [] (e_lines e) [] false None))) /\
     fst (identify (s_raw o) (s_dns o) false (mkFail (e_groups e) [] (e_lines e) [] false None)) =
       match who (s_raw o) (s_dns o) (gtext (e_groups e)) with Some ids => VFound ids (snd (identify (s_raw o) (s_dns o) false (mkFail (e_groups e) [] (e_lines e) [] false None))) | None => VError end) ->
     match who (s_raw o) (s_dns o) (field e) with
     | Some ids => exists f, fst (identify (s_raw o) (s_dns o) false (mkFail (e_groups e) [] (e_lines e) [] false None)) = VFound ids f /\ f_groups f = e_groups e /\ f_matches f = e_lines e
     | None => fst (identify (s_raw o) (s_dns o) false (mkFail (e_groups e) [] (e_lines e) [] false None)) = VError end).
  { intros [(i & Hs) Hf]. rewrite Hs in Hf. rewrite (who_ext _ _ _ (field e)) in Hf by (intros; apply Fd). revert Hf. destruct (who (s_raw o) (s_dns o) (field e)); intros Hf; [|exact Hf]. eexists. split; [exact Hf|]. split; reflexivity. }
  destruct (field e "fid"), (field e "ip4"), (field e "ip6"), (field e "dns"); (split; [intros; try discriminate|intros N; try (now apply D)]); now rewrite I.
Qed.
(** However many sessions there are, at most 100 are kept. *)
Theorem C50_bounded os : (length (ca_list (see_all os)) <= 100)%nat.
Proof.
  enough (H : ca_max (see_all os) = 100%nat /\ (length (ca_list (see_all os)) <= 100)%nat) by apply H. unfold see_all.
  induction os as [|o os IH] using rev_ind; [cbn; auto with arith|]. rewrite fold_left_app. cbn [fold_left]. destruct IH. now apply see_size.
Qed.

(** *** Demonstrations *)
Definition gs (l : list (string * string)) : groups := map (fun kv => (fst kv, Some (tx (snd kv)))) l.
Definition at_ (t : Z) (l : list (string * string)) (s : string) : seen := mkSeen t false (fun _ => []) (mkE (gs l) [ln s]).
(** Two sessions interleaved: connect, connect, failure of the first, accepted in the second. *)
Definition demo : list seen :=
  [at_ 0 [("mlfid", "s1"); ("ip4", "192.0.2.1"); ("nofail", "x")] "connect 1";
   at_ 1 [("mlfid", "s2"); ("ip4", "192.0.2.2"); ("nofail", "x")] "connect 2";
   at_ 2 [("mlfid", "s1"); ("user", "root")] "failed 1";
   at_ 3 [("mlfid", "s2"); ("user", "admin"); ("mlfgained", "x")] "accepted 2"]%string.
Definition verdicts (os : list seen) : list verdict := map (fun n => match nth_error os n with Some o => snd (see (see_all (firstn n os)) o) | None => VNone end) (seq 0 (length os)).
Definition short (v : verdict) : option (list text * list line * list text) :=
  match v with VFound ids f => Some (map ntoa ids, f_matches f, f_users f) | _ => None end.
Example C50_demo : few_sessions demo /\ proper_groups demo /\
  map short (verdicts demo) = [None; None; Some ([tx "192.0.2.1"], [ln "connect 1"; ln "failed 1"], [tx "root"]); None] /\ nth 3 (verdicts demo) VNone = VQuiet.
Proof.
  split; [|split; [|vm_compute; auto]].
  - exists [tx "s1"; tx "s2"]. split; [cbn; auto with arith|]. intros o i [<-|[<-|[<-|[<-|[]]]]] H; vm_compute in H; injection H as <-; cbn; auto.
  - intros o [<-|[<-|[<-|[<-|[]]]]]; vm_compute; repeat constructor; intros H; repeat (destruct H as [H|H]; [discriminate|]); exact H.
Qed.
(** A failure waits for the address, which comes with a quiet line: it is then counted. *)
Example C50_waiting_demo :
  let os := [at_ 0 [("mlfid", "s1"); ("user", "root")] "failed"; at_ 1 [("mlfid", "s1"); ("ip4", "192.0.2.1"); ("nofail", "x")] "disconnect"]%string in
  nth 0 (verdicts os) VNone = VWait /\ short (nth 1 (verdicts os) VNone) = Some ([tx "192.0.2.1"], [ln "failed"; ln "disconnect"], [tx "root"]).
Proof. vm_compute. auto. Qed.

(** *** What does not hold *)
(** A session is forgotten 300 seconds after its first line although it was active since: the
    address is lost. *)
Theorem C50_activity_refuted : exists os o, few_sessions (os ++ [o]) /\ (forall o', In o' os -> s_now o - s_now o' < 300 \/ s_now o' = 0)%Z /\
  In (s_now o - 1)%Z (map s_now os) /\ existsb (fun o' => presentb (s_event o') "ip4") os = true /\ snd (see (see_all os) o) = VWait.
Proof.
  exists [at_ 0 [("mlfid", "s1"); ("ip4", "192.0.2.1"); ("nofail", "x")] "connect"; at_ 299 [("mlfid", "s1"); ("user", "root"); ("nofail", "x")] "try"]%string,
    (at_ 300 [("mlfid", "s1"); ("user", "root")] "failed")%string.
  split; [exists [tx "s1"]; split; [cbn; auto with arith|intros o i [<-|[<-|[<-|[]]]] H; vm_compute in H; injection H as <-; cbn; auto]|].
  split; [intros o' [<-|[<-|[]]]; cbn; auto; left; reflexivity|]. split; [cbn; auto|]. split; vm_compute; reflexivity.
Qed.
(** With more than 100 sessions a live one is pushed out, and its failure has no address. *)
Definition num (n : nat) : text := list_ascii_of_string "c" ++ show 10 (Z.of_nat n).
Theorem C50_many_refuted : exists os o id, session_of o = Some id /\ before id os (s_now o) <> [] /\ ~ no_id (s_event o :: before id os (s_now o)) /\ snd (see (see_all os) o) = VWait.
Proof.
  exists (map (fun n => mkSeen 1 false (fun _ => []) (mkE [("mlfid", Some (num n)); ("ip4", Some (tx "192.0.2.1")); ("nofail", Some (tx "x"))] [])) (seq 0 101)),
    (mkSeen 2 false (fun _ => []) (mkE [("mlfid", Some (num 0))] [])), (num 0).
  split; [vm_compute; reflexivity|]. split; [vm_compute; discriminate|]. split; [|vm_compute; reflexivity].
  rewrite <- no_id_b. vm_compute. discriminate.
Qed.
(** Access gained cancels the failures that wait, but the line that says so may be a failure: with
    several users in the session it is counted. *)
Example C50_gained_demo :
  let os := [at_ 0 [("mlfid", "s1"); ("user", "root")] "failed A"; at_ 1 [("mlfid", "s1"); ("user", "admin")] "failed B"; at_ 2 [("mlfid", "s1"); ("ip4", "192.0.2.1"); ("mlfgained", "x")] "accepted"]%string in
  short (nth 2 (verdicts os) VNone) = Some ([tx "192.0.2.1"], [ln "accepted"], [tx "root"; tx "admin"]).
Proof. vm_compute. reflexivity. Qed.
(** A line that has been reported is not reported again. *)
Example C50_once_demo :
  let os := [at_ 0 [("mlfid", "s1"); ("ip4", "192.0.2.1")] "failed A"; at_ 1 [("mlfid", "s1"); ("nofail", "x")] "quiet B"; at_ 2 [("mlfid", "s1")] "failed C"]%string in
  map short (verdicts os) = [Some ([tx "192.0.2.1"], [ln "failed A"], []); None; Some ([tx "192.0.2.1"], [ln "quiet B"; ln "failed C"], [])].
Proof. vm_compute. reflexivity. Qed.
(** Without a session the mark "nofail" has no effect: the match is counted. *)
Theorem C50_nofail_refuted : exists o, presentb (s_event o) "nofail" = true /\ short (snd (see no_sessions o)) = Some ([tx "192.0.2.1"], [ln "connect"], []).
Proof. exists (at_ 0 [("ip4", "192.0.2.1"); ("nofail", "x")] "connect")%string. vm_compute. auto. Qed.
(** A failure ID is not used if the host is a name that is looked up. *)
Theorem C50_name_refuted : exists o a, field (s_event o) "fid" = Some (tx "user-7") /\ (exists f, snd (see no_sessions o) = VFound [a] f) /\ ntoa a = tx "192.0.2.9".
Proof.
  destruct (ip_new (tx "192.0.2.9") CUnspec) as [a|] eqn:E; [|discriminate].
  exists (mkSeen 0 false (fun _ => [a]) (mkE (gs [("dns", "host.example"); ("fid", "user-7")]%string) [ln "x"])), a.
  split; [reflexivity|]. split; [eexists; vm_compute; reflexivity|]. assert (H : option_map ntoa (Some a) = Some (tx "192.0.2.9")) by (rewrite <- E; vm_compute; reflexivity). now injection H.
Qed.

Print Assumptions C50_quiet.
Print Assumptions C50_waits.
Print Assumptions C50_found.
Print Assumptions C50_single.
Print Assumptions C50_bounded.
Print Assumptions C50_demo.
Print Assumptions C50_waiting_demo.
Print Assumptions C50_activity_refuted.
Print Assumptions C50_many_refuted.
Print Assumptions C50_gained_demo.
Print Assumptions C50_once_demo.
Print Assumptions C50_nofail_refuted.
Print Assumptions C50_name_refuted.
