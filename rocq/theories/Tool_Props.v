(** Properties C113 to C115: what fail2ban-regex says. *)
From Verif Require Import Base Text IPAddr_Model Lines_Model Session_Model Ignore_Model FailManager_Model Filter_Model Tool_Model Tool_Spec Tool_Proofs Tool_Proofs2.
Local Open Scope string_scope. Local Open Scope list_scope. Local Open Scope Z_scope.

(** * Examples: expressions that look for a word *)
Fixpoint begins_with (a s : text) : bool :=
  match a, s with [], _ => true | c :: a, d :: s => eqb c d && begins_with a s | _, [] => false end.
Fixpoint has_word (a s : text) : bool := begins_with a s || match s with [] => false | _ :: r => has_word a r end.
Definition finds (word : string) (g : list (string * string)) : pattern :=
  fun buf => if has_word (tx word) buf then Some (mkM 0 (length buf) (map (fun kv => (fst kv, Some (tx (snd kv)))) g) []) else None.
(** exactly these lines *)
Definition exactly (ls : list string) (g : list (string * string)) (skips : list (option text)) : pattern :=
  fun buf => if eqb buf (concat (map (fun s => tx s ++ [nl]) ls)) then Some (mkM 0 (length buf) (map (fun kv => (fst kv, Some (tx (snd kv)))) g) skips) else None.
Definition world0 : fworld :=
  mkFW (mkW 1000 [] (fun _ => []) (fun _ => []) (fun _ => None)) (fun t => if has_word (tx "@") t then Some (0%nat, 1%nat, Some 990) else None) (fun _ => []) (fun _ _ _ t => t).
Definition opts0 := mkOpts 20 true false false false false false.
Definition filter0 : fcfg := mkCfg false 1 None [finds "failed" [("ip4", "192.0.2.1")]; finds "bad" [("fid", "x")]] [finds "test" []] false.
Definition lines0 := [ILine (tx "# comment"); ILine (tx "@ failed and bad"); ILine (tx "@ good"); ILine [nl]; ILine (tx "@ failed test"); ILine (tx "@ bad")].

(** * C113: the numbers add up *)
Theorem C113_sum o cfg w l T said : process o cfg w tool_init l = Some (T, said) ->
  tested (t_stats T) = Z.of_nat (length (filter looked_at l)) /\
  tested (t_stats T) = matched (t_stats T) + ignored (t_stats T) + missed (t_stats T) /\ 0 <= matched (t_stats T) /\ 0 <= ignored (t_stats T).
Proof. intros H. apply process_facts in H. cbn in H. lia. Qed.
(** With single lines, each number is that of the lines of which it was said. *)
Theorem C113_single o cfg w l T said : single_line cfg -> 0 <= o_limit o -> process o cfg w tool_init l = Some (T, said) ->
  length said = length (filter looked_at l) /\
  matched (t_stats T) = number KMatched said /\ ignored (t_stats T) = number KIgnored said /\ missed (t_stats T) = number KMissed said.
Proof.
  intros S1 L H. split; [now apply process_facts in H|]. apply (process_agrees o cfg w l S1 ltac:(lia) tool_init T [] said (agrees_init o)) in H as (A & B & C & _). now repeat split.
Qed.
(** With several lines it can be below zero: a line that was ignored is part of a later match. *)
Theorem C113_negative_refuted : exists cfg T said, process opts0 cfg world0 tool_init [ILine (tx "a"); ILine (tx "b")] = Some (T, said) /\
  matched (t_stats T) = 2 /\ ignored (t_stats T) = 1 /\ missed (t_stats T) = -1.
Proof.
  set (p := exactly ["a"; "b"] [("ip4", "192.0.2.1")] []). exists (mkCfg false 2 None [p; p; p; p] [exactly ["a"] [] []] false).
  eexists. eexists. split; [vm_compute; reflexivity|]. repeat split.
Qed.
(** And lines count as matched which no failregex matched, if there is a prefregex with a content. *)
Theorem C113_prefix_refuted : exists cfg T said, process opts0 cfg world0 tool_init [ILine (tx "a"); ILine (tx "b"); ILine (tx "c")] = Some (T, said) /\
  c_fail cfg = [] /\ matched (t_stats T) = 2 /\ map snd said = [KMissed; KMissed; KMissed].
Proof.
  exists (mkCfg false 2 (Some (fun buf => Some (mkM 0 (length buf) [("content", Some buf)] []))) [] [] false).
  eexists. eexists. split; [vm_compute; reflexivity|]. repeat split.
Qed.
Example C113_demo : exists T said, process opts0 filter0 world0 tool_init lines0 = Some (T, said) /\ single_line filter0 /\
  map snd said = [KMatched; KMissed; KIgnored; KMatched] /\ fail_hits (t_stats T) = [0; 1; 1]%nat /\ tested (t_stats T) = 4.
Proof. eexists. eexists. split; [vm_compute; reflexivity|]. split; [exact (le_n 1)|]. repeat split. Qed.

(** * C114: the lines that are printed are all of their kind, in their order *)
Theorem C114_printed o cfg w l T said k shown : single_line cfg -> 0 <= o_limit o -> process o cfg w tool_init l = Some (T, said) ->
  printed o k (t_stats T) = Some shown -> shown = those k said.
Proof.
  intros S1 L H P. apply (process_agrees o cfg w l S1 ltac:(lia) tool_init T [] said (agrees_init o)) in H. now apply (printed_agrees o said (t_stats T)).
Qed.
(** They are printed if there are some, fewer than the limit, unless one asked not to; and all of them if one asked so. *)
Theorem C114_when o cfg w l T said k : single_line cfg -> 0 <= o_limit o -> process o cfg w tool_init l = Some (T, said) ->
  0 < number k said -> match k with KMatched => o_all_matched o = true | KIgnored => o_no_ignored o = false | KMissed => o_no_missed o = false end ->
  number k said < o_limit o \/ match k with KMatched => o_all_matched o | KIgnored => o_all_ignored o | KMissed => o_all_missed o end = true ->
  printed o k (t_stats T) = Some (those k said).
Proof.
  intros S1 L H N W A. pose proof H as H0. apply (process_agrees o cfg w l S1 ltac:(lia) tool_init T [] said (agrees_init o)) in H as G.
  destruct (printed o k (t_stats T)) as [x|] eqn:P; [now rewrite (printed_agrees _ _ _ _ _ G P)|]. exfalso. destruct G as (G1 & G2 & G3 & _).
  apply (printed_some o (t_stats T) k); [| | |exact P]; destruct k; rewrite ?G1, ?G2, ?G3; try assumption; now rewrite W.
Qed.
(** With several lines, missed lines can be missing: here four were missed, three of them are printed. *)
Theorem C114_several_refuted : exists cfg T said shown,
  process (mkOpts 5 true false false false false false) cfg world0 tool_init (map (fun s => ILine (tx s)) ["1"; "2"; "3"; "4"; "5"; "6"; "7"; "8"]) = Some (T, said) /\
  missed (t_stats T) = 4 /\ printed (mkOpts 5 true false false false false false) KMissed (t_stats T) = Some shown /\ length shown = 3%nat.
Proof.
  exists (mkCfg false 5 None [exactly ["4"; "5"; "6"; "7"; "8"] [("ip4", "192.0.2.1")] [Some (tx "7" ++ [nl])]] [] false).
  eexists. eexists. eexists. split; [vm_compute; reflexivity|]. split; [reflexivity|]. split; reflexivity.
Qed.
Example C114_demo : exists T said, process opts0 filter0 world0 tool_init lines0 = Some (T, said) /\
  printed opts0 KMissed (t_stats T) = Some [tx "@ good"] /\ printed opts0 KIgnored (t_stats T) = Some [tx "@ failed test"] /\ printed opts0 KMatched (t_stats T) = None.
Proof. eexists. eexists. split; [vm_compute; reflexivity|]. repeat split. Qed.

(** * C115: what it says of a line is what the server does with it *)
(** A line with a date that the server does not leave out for its age: if it is not said to be matched, the server finds no failure in it; if it is, and
    host names have addresses, the server finds a failure, by the first of the failregex that are counted. *)
Theorem C115_server o cfg w T i t T' k f d : o_all o = true -> single_line cfg -> simple cfg -> date_of w i = Some d ->
  taken cfg (fw_now w) (fm_time (l_fm f)) d -> tool_line o cfg w T i t = Some (T', k) ->
  exists f' fl time, process_line cfg w f i = (f', Failures fl, time) /\ (k <> KMatched -> fl = []) /\
    (resolves cfg w -> k = KMatched -> fl <> [] /\
      exists n later, fail_hits (t_stats T') = fail_hits (t_stats T) ++ repeat n (length fl) ++ later /\ Forall (fun m => n < m)%nat later).
Proof. apply line_served. Qed.
(** A host name without addresses: the server finds nothing and tries no further failregex; fail2ban-regex does, and says matched. *)
Theorem C115_lookup_refuted : exists cfg T k f fl time, simple cfg /\ tool_line opts0 cfg world0 tool_init (ILine (tx "@ x")) (tx "@ x") = Some (T, k) /\ k = KMatched /\
  process_line cfg world0 flt_init (ILine (tx "@ x")) = (f, Failures fl, time) /\ fl = [].
Proof.
  exists (mkCfg false 1 None [finds "x" [("dns", "nobody.example")]; finds "x" [("ip4", "192.0.2.1")]] [] true). eexists. eexists. eexists. eexists. eexists. split.
  - split; [intros p buf m H; discriminate|]. intros p buf m [<- |[<- |[]]]; unfold finds; (destruct (has_word _ buf); [|discriminate]); intros H; injection H as <-; cbn [m_groups map fst snd].
    + split; [split; [|split]; [cbn; intuition discriminate|cbn; intuition discriminate|repeat constructor; intros []]|]. exists "dns", (tx "nobody.example"). cbn. tauto.
    + split; [split; [|split]; [cbn; intuition discriminate|cbn; intuition discriminate|repeat constructor; intros []]|]. exists "ip4", (tx "192.0.2.1"). cbn. tauto.
  - split; [vm_compute; reflexivity|]. split; [reflexivity|]. split; [vm_compute; reflexivity|reflexivity].
Qed.
(** With <F-NOFAIL> but without <F-MLFID>, fail2ban-regex says ignored, and the server counts a failure. *)
Theorem C115_nofail_refuted : exists cfg T k f fl time, tool_line opts0 cfg world0 tool_init (ILine (tx "@ x")) (tx "@ x") = Some (T, k) /\ k = KIgnored /\
  process_line cfg world0 flt_init (ILine (tx "@ x")) = (f, Failures fl, time) /\ length fl = 1%nat.
Proof.
  exists (mkCfg false 1 None [finds "x" [("ip4", "192.0.2.1"); ("nofail", "x")]] [] true). do 5 eexists. split; [vm_compute; reflexivity|]. split; [reflexivity|]. split; [vm_compute; reflexivity|reflexivity].
Qed.
(** A line without a date: fail2ban-regex says matched; the server, while it reads old messages, finds nothing. *)
Theorem C115_undated_refuted : exists cfg T k f fl time, tool_line opts0 cfg world0 tool_init (ILine (tx "x")) (tx "x") = Some (T, k) /\ k = KMatched /\
  process_line cfg world0 flt_init (ILine (tx "x")) = (f, Failures fl, time) /\ fl = [].
Proof.
  exists (mkCfg false 1 None [finds "x" [("ip4", "192.0.2.1")]] [] false). do 5 eexists. split; [vm_compute; reflexivity|]. split; [reflexivity|]. split; [vm_compute; reflexivity|reflexivity].
Qed.
Example C115_demo : single_line filter0 /\ simple filter0 /\ date_of world0 (ILine (tx "@ failed and bad")) = Some 990 /\ taken filter0 1000 600 990 /\
  exists T, tool_line opts0 filter0 world0 tool_init (ILine (tx "@ failed and bad")) (tx "@ failed and bad") = Some (T, KMatched).
Proof.
  split; [exact (le_n 1)|]. split; [|split; [vm_compute; reflexivity|split; [right; lia|eexists; vm_compute; reflexivity]]].
  split; [intros p buf m H; discriminate|]. intros p buf m [<- |[<- |[]]]; unfold finds; (destruct (has_word _ buf); [|discriminate]); intros H; injection H as <-; cbn [m_groups map fst snd].
  - split; [split; [|split]; [cbn; intuition discriminate|cbn; intuition discriminate|repeat constructor; intros []]|]. exists "ip4", (tx "192.0.2.1"). cbn. tauto.
  - split; [split; [|split]; [cbn; intuition discriminate|cbn; intuition discriminate|repeat constructor; intros []]|]. exists "fid", (tx "x"). cbn. tauto.
Qed.

Print Assumptions C113_sum.
Print Assumptions C113_single.
Print Assumptions C113_negative_refuted.
Print Assumptions C113_prefix_refuted.
Print Assumptions C114_printed.
Print Assumptions C114_when.
Print Assumptions C114_several_refuted.
Print Assumptions C115_server.
Print Assumptions C115_lookup_refuted.
Print Assumptions C115_nofail_refuted.
Print Assumptions C115_undated_refuted.
