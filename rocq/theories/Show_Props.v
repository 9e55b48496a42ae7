(** C122: what fail2ban-client prints is what the server answered. *)
From Verif Require Import Base Text Show_Model Show_Spec.
Local Open Scope string_scope. Local Open Scope list_scope. Local Open Scope nat_scope.

Lemma differ (a b : text) : a <> b -> eqb a b = false.
Proof. now destruct (eqb_spec a b). Qed.
Lemma free_app (c : ascii) (a b : text) : ~ In c a -> ~ In c b -> ~ In c (a ++ b).
Proof. intros A B I1. apply in_app_iff in I1. tauto. Qed.
Lemma entries_lines lab l : forall c, l <> [] -> (forall n, one_line (lab n)) -> Forall one_line l ->
  length (split nl (entries lab c l)) = length l /\
  forall i x, nth_error l i = Some x -> nth_error (split nl (entries lab c l)) i = Some ((if Nat.eqb (S i) (length l) then tx "`- " else tx "|- ") ++ lab (c + i) ++ x).
Proof.
  induction l as [|a l IH]; intros c NE L F; [contradiction|]. inversion_clear F as [|? ? FA FL].
  assert (PF : forall p : text, ~ In nl p -> ~ In nl (p ++ lab c ++ a)) by (intros p P; repeat apply free_app; [exact P|apply L|exact FA]).
  destruct l as [|b l].
  - cbn [entries]. rewrite split_free by (apply PF; cbn; intuition discriminate). split; [reflexivity|]. intros [|[|i]] x H; try discriminate. injection H as <-. cbn [nth_error Nat.eqb length]. now rewrite Nat.add_0_r.
  - assert (E : entries lab c (a :: b :: l) = (tx "|- " ++ lab c ++ a) ++ nl :: entries lab (S c) (b :: l)) by (cbn [entries]; rewrite <- !app_assoc; reflexivity).
    rewrite E, split_app by (apply PF; cbn; intuition discriminate). destruct (IH (S c)) as [A B]; [discriminate|exact L|exact FL|]. split; [cbn [length] in *; now rewrite A|].
    intros [|i] x H; cbn [nth_error] in *.
    + injection H as <-. rewrite Nat.add_0_r. reflexivity.
    + rewrite (B i x H). replace (S c + i) with (c + S i) by lia. reflexivity.
Qed.
Lemma show_lines none head lab l : l <> [] -> one_line head -> (forall n, one_line (lab n)) -> Forall one_line l ->
  exists r, lines (show_list none head lab l) = head :: r /\ length r = length l /\
  forall i x, nth_error l i = Some x -> nth_error r i = Some ((if Nat.eqb (S i) (length l) then tx "`- " else tx "|- ") ++ lab i ++ x).
Proof.
  intros NE H L F. destruct (entries_lines lab l 0 NE L F) as [A B]. exists (split nl (entries lab 0 l)). split; [|split; [exact A|exact B]].
  unfold lines, show_list. destruct l as [|a l]; [contradiction|]. change (head ++ [nl] ++ entries lab 0 (a :: l)) with (head ++ nl :: entries lab 0 (a :: l)). now apply split_app.
Qed.
Lemma empty_free n : one_line ((fun _ : nat => @nil ascii) n). Proof. intros []. Qed.
Lemma digits_free n : (0 <= n)%Z -> one_line (dec n).
Proof. intros P I1. unfold one_line, dec, show in I1. apply in_map_iff in I1. destruct I1 as (d & E & I1).
  assert (R : (0 <= d < 10)%Z) by (exact (proj1 (Forall_forall _ _) (digits_range 10 n (ltac:(lia)) P) d I1)).
  assert (D : (d = 0 \/ d = 1 \/ d = 2 \/ d = 3 \/ d = 4 \/ d = 5 \/ d = 6 \/ d = 7 \/ d = 8 \/ d = 9)%Z) by lia.
  destruct D as [-> |[-> |[-> |[-> |[-> |[-> |[-> |[-> |[-> | ->]]]]]]]]]; vm_compute in E; discriminate E.
Qed.

(** * Lists *)
(** For log files, ignored addresses and expressions: after the line that says what they are there is one line for each entry, in their order, with
    the entry at its end; before an expression there is its number, the one by which it is deleted. *)
Theorem C122_files l : l <> [] -> Forall one_line l -> exists r, lines (show_files l) = files_head :: r /\ length r = length l /\
  forall i x, nth_error l i = Some x -> nth_error r i = Some ((if Nat.eqb (S i) (length l) then tx "`- " else tx "|- ") ++ x).
Proof. intros NE F. apply (show_lines no_files files_head (fun _ => []) l NE); [vm_compute; intuition discriminate|exact empty_free|exact F]. Qed.
Theorem C122_ips l : l <> [] -> Forall one_line l -> exists r, lines (show_ips l) = ips_head :: r /\ length r = length l /\
  forall i x, nth_error l i = Some x -> nth_error r i = Some ((if Nat.eqb (S i) (length l) then tx "`- " else tx "|- ") ++ x).
Proof. intros NE F. apply (show_lines no_ips ips_head (fun _ => []) l NE); [vm_compute; intuition discriminate|exact empty_free|exact F]. Qed.
Theorem C122_regex l : l <> [] -> Forall one_line l -> exists r, lines (show_regex l) = regex_head :: r /\ length r = length l /\
  forall i x, nth_error l i = Some x -> nth_error r i = Some ((if Nat.eqb (S i) (length l) then tx "`- " else tx "|- ") ++ (tx "[" ++ dec (Z.of_nat i) ++ tx "]: ") ++ x).
Proof.
  intros NE F. apply (show_lines no_regex regex_head (fun c => tx "[" ++ dec (Z.of_nat c) ++ tx "]: ") l NE); [vm_compute; intuition discriminate| |exact F].
  intros n. repeat apply free_app; [cbn; intuition discriminate|apply digits_free; lia|cbn; intuition discriminate].
Qed.
(** Nothing is said of an empty list but that it is empty, and this is said of no other list. *)
Theorem C122_none l : (show_files l = no_files <-> l = []) /\ (show_ips l = no_ips <-> l = []) /\ (show_regex l = no_regex <-> l = []).
Proof. destruct l as [|a l]; [repeat split|]. repeat split; intros H; try discriminate H; exfalso; vm_compute in H; discriminate H. Qed.
(** Banned addresses, without a separator, one per line or with another character between them: they can be read back. *)
Theorem C122_bans l : l <> [] -> (Forall one_word l -> split " "%char (show_bans None l) = l) /\ (Forall one_line l -> lines (show_bans (Some (tx "--with-time")) l) = l)
  /\ (forall c, Forall (fun t => ~ In c t) l -> split c (show_bans (Some [c]) l) = l).
Proof.
  intros NE. repeat split.
  - intros F. apply (split_join " "%char l NE). apply (Forall_impl _ (fun a (H : one_word a) => proj2 H) F).
  - intros F. exact (split_join nl l NE F).
  - intros c F. unfold show_bans. rewrite (differ [c] (tx "--with-time")) by discriminate. exact (split_join c l NE F).
Qed.
(** A file name may have a line break in it, and then it looks like two files. *)
Theorem C122_break_refuted : show_files [tx "/a" ++ [nl] ++ tx "|- /b"; tx "/c"] = show_files [tx "/a"; tx "/b"; tx "/c"].
Proof. vm_compute. reflexivity. Qed.
Theorem C122_demo : Forall one_line [tx "a b"; tx "c"] /\ show_regex [tx "a b"; tx "c"] = regex_head ++ [nl] ++ tx "|- [0]: a b" ++ [nl] ++ tx "`- [1]: c"
  /\ Forall one_word [tx "1.2.3.4"; tx "::1"] /\ show_bans (Some (tx ",")) [tx "1.2.3.4"; tx "::1"] = tx "1.2.3.4,::1".
Proof. repeat split; try (vm_compute; reflexivity); repeat constructor; intros X; cbn in X; intuition discriminate. Qed.

(** * States *)
Definition branch (p : text) : Prop := Forall (fun c => inb c [" "%char; "|"%char; "`"%char; "-"%char] = true) p.
Lemma bare_branch p k : branch p -> named k -> forall r, bare (p ++ k ++ r) = k ++ r.
Proof.
  intros B (c & t & -> & N) r. induction p as [|x p IH]; cbn [app bare].
  - now rewrite N.
  - inversion_clear B as [|? ? X P]. rewrite X. now apply IH.
Qed.
Lemma branch_app a b : branch a -> branch b -> branch (a ++ b).
Proof. intros A B. apply Forall_app. now split. Qed.
Lemma branch_free p : branch p -> ~ In nl p.
Proof. intros B I1. apply (proj1 (Forall_forall _ _) B) in I1. vm_compute in I1. discriminate. Qed.
Ltac br := repeat constructor.
Lemma value_free v : plain v -> ~ In nl (show_value v).
Proof.
  destruct v as [t|l]; cbn [show_value plain]; [trivial|]. intros F I1. apply In_join in I1. destruct I1 as [I1|(t & I1 & I2)]; [cbn in I1; intuition discriminate|].
  apply (proj1 (Forall_forall _ _) F) in I1. now apply (proj1 I1).
Qed.
Lemma items_said pref l : branch pref -> plain_items l -> Forall (fun e => named (fst e)) l -> map bare (items pref l) = map said l /\ Forall one_line (items pref l).
Proof.
  intros B. induction l as [|[k v] l IH]; intros P N; [split; [reflexivity|constructor]|]. inversion_clear P as [|? ? [P1 P2] P']. inversion_clear N as [|? ? N1 N']. destruct (IH P' N') as [A C]. cbn [fst snd] in *.
  assert (BR : branch (match l with [] => tx "`-" | _ => tx "|-" end)) by (destruct l; br).
  cbn [items map]. split.
  - rewrite A. f_equal. unfold said. cbn [fst snd].
    replace (pref ++ (match l with [] => tx "`-" | _ => tx "|-" end) ++ tx " " ++ k ++ tx ":" ++ [tab] ++ show_value v) with ((pref ++ (match l with [] => tx "`-" | _ => tx "|-" end) ++ tx " ") ++ k ++ tx ":" ++ [tab] ++ show_value v) by now rewrite <- !app_assoc.
    apply bare_branch; [|exact N1]. repeat apply branch_app; try assumption. br.
  - constructor; [|exact C]. unfold one_line. repeat apply free_app; [now apply branch_free|now apply branch_free|cbn; intuition discriminate|exact P1|cbn; intuition discriminate|vm_compute; intuition discriminate|now apply value_free].
Qed.
Lemma stat_said l : forall pref, branch pref -> plain_jail l -> Forall (fun e => named (fst e) /\ Forall (fun x => named (fst x)) (snd e)) l -> map bare (jail_stat pref l) = jail_said l /\ Forall one_line (jail_stat pref l).
Proof.
  induction l as [|[k vs] l IH]; intros pref B P N; [split; [reflexivity|constructor]|]. inversion_clear P as [|? ? [P1 P2] P']. inversion_clear N as [|? ? [N1 N2] N']. destruct (IH pref B P' N') as [A C]. cbn [fst snd] in *.
  assert (BR : branch (match l with [] => tx "`-" | _ => tx "|-" end)) by (destruct l; br).
  assert (BR2 : branch (pref ++ (match l with [] => tx "   " | _ => tx "|  " end))) by (apply branch_app; [exact B|destruct l; br]).
  destruct (items_said _ vs BR2 P2 N2) as [I1 I2]. cbn [jail_stat map]. unfold jail_said. cbn [map concat fst snd app]. split.
  - rewrite map_app, I1, A. f_equal.
    replace (pref ++ (match l with [] => tx "`-" | _ => tx "|-" end) ++ tx " " ++ k) with ((pref ++ (match l with [] => tx "`-" | _ => tx "|-" end) ++ tx " ") ++ k ++ []) by now rewrite app_nil_r, <- !app_assoc.
    rewrite bare_branch; [apply app_nil_r| |exact N1]. repeat apply branch_app; try assumption. br.
  - constructor; [|apply Forall_app; now split]. unfold one_line. repeat apply free_app; [now apply branch_free|now apply branch_free|cbn; intuition discriminate|exact P1].
Qed.
(** The state of a jail: below the first line, without the branches drawn before them, the lines are the names of the parts and, below each, its items with
    their values, all of them in their order. *)
Theorem C122_status name l : one_line name -> plain_jail l -> Forall (fun e => named (fst e) /\ Forall (fun x => named (fst x)) (snd e)) l ->
  exists r, lines (status_jail name l) = (tx "Status for the jail: " ++ name) :: r /\ map bare r = jail_said l.
Proof.
  intros ON P N. destruct (stat_said l [] (Forall_nil _) P N) as [A C]. exists (jail_stat [] l). split; [|exact A]. unfold lines, status_jail. apply split_join; [discriminate|]. constructor; [|exact C].
  apply free_app; [vm_compute; intuition discriminate|exact ON].
Qed.
Lemma server_said more l : plain_items l -> Forall (fun e => named (fst e)) l -> map bare (server_items more l) = map said l /\ Forall one_line (server_items more l).
Proof.
  induction l as [|[k v] l IH]; intros P N; [split; [reflexivity|constructor]|]. inversion_clear P as [|? ? [P1 P2] P']. inversion_clear N as [|? ? N1 N']. destruct (IH P' N') as [A C]. cbn [fst snd] in *.
  assert (BR : branch (match l with [] => if more then tx "|-" else tx "`-" | _ => tx "|-" end)) by (destruct l; [destruct more|]; br). assert (SP : branch (tx " ")) by br.
  cbn [server_items map]. split.
  - rewrite A. f_equal. unfold said. cbn [fst snd]. rewrite app_assoc. exact (bare_branch _ k (branch_app _ _ BR SP) N1 _).
  - constructor; [|exact C]. unfold one_line. repeat apply free_app; [now apply branch_free|cbn; intuition discriminate|exact P1|cbn; intuition discriminate|vm_compute; intuition discriminate|now apply value_free].
Qed.
Lemma jails_said js : Forall (fun j => one_line (fst j) /\ plain_jail (snd j) /\ Forall (fun e => named (fst e) /\ Forall (fun x => named (fst x)) (snd e)) (snd j)) js ->
  map bare (jails js) = concat (map (fun j => (tx "Jail: " ++ fst j) :: jail_said (snd j)) js) /\ Forall one_line (jails js).
Proof.
  induction js as [|[n j] js IH]; intros F; [split; [reflexivity|constructor]|]. inversion_clear F as [|? ? (F1 & F2 & F3) F']. destruct (IH F') as [A C]. cbn [fst snd] in *.
  assert (BR : branch (match js with [] => tx "`-" | _ => tx "|-" end)) by (destruct js; br).
  assert (BR2 : branch (match js with [] => tx "      " | _ => tx "   |  " end)) by (destruct js; br).
  destruct (stat_said j _ BR2 F2 F3) as [S1 S2]. cbn [jails map concat app fst snd]. split.
  - rewrite map_app, S1, A. f_equal.
    replace (tx "   " ++ (match js with [] => tx "`-" | _ => tx "|-" end) ++ tx " Jail: " ++ n) with ((tx "   " ++ (match js with [] => tx "`-" | _ => tx "|-" end) ++ tx " ") ++ tx "Jail: " ++ n) by (rewrite <- !app_assoc; reflexivity).
    apply bare_branch; [|exists "J"%char, (tx "ail: "); split; reflexivity]. repeat apply branch_app; try exact BR; br.
  - constructor; [|apply Forall_app; now split]. unfold one_line. repeat apply free_app; [cbn; intuition discriminate|now apply branch_free|vm_compute; intuition discriminate|exact F1].
Qed.
(** The state of the server, alone and with all jails, likewise; every jail is there, with its whole state. *)
Theorem C122_all l js : plain_items l -> Forall (fun e => named (fst e)) l ->
  Forall (fun j => one_line (fst j) /\ plain_jail (snd j) /\ Forall (fun e => named (fst e) /\ Forall (fun x => named (fst x)) (snd e)) (snd j)) js ->
  map bare (lines (status_all l js)) = tx "Status" :: map said l ++ match js with [] => [] | _ => tx "Status for the jails:" :: concat (map (fun j => (tx "Jail: " ++ fst j) :: jail_said (snd j)) js) end.
Proof.
  intros P N F. unfold status_all, lines. set (more := match js with [] => false | _ => true end). destruct (server_said more l P N) as [A B]. destruct (jails_said js F) as [C D].
  rewrite split_join; [|discriminate|].
  - cbn [map]. rewrite map_app, A. f_equal. f_equal. unfold more. destruct js as [|j js]; [reflexivity|]. rewrite <- C. reflexivity.
  - constructor; [vm_compute; intuition discriminate|]. apply Forall_app. split; [exact B|]. destruct more; [|constructor]. constructor; [vm_compute; intuition discriminate|exact D].
Qed.
(** Of the lists in a state, like that of banned addresses, the entries can be read back, none but these. *)
Theorem C122_value l : l <> [] -> Forall one_word l -> split " "%char (show_value (VList l)) = l.
Proof. intros NE F. apply (split_join " "%char l NE). apply (Forall_impl _ (fun a (H : one_word a) => proj2 H) F). Qed.
Theorem C122_demo_status : let l := [(tx "Filter", [(tx "Currently failed", VText (tx "1"))]); (tx "Actions", [(tx "Currently banned", VText (tx "2")); (tx "Banned IP list", VList [tx "1.2.3.4"; tx "::1"])])] in
  plain_jail l /\ Forall (fun e => named (fst e) /\ Forall (fun x => named (fst x)) (snd e)) l
  /\ status_jail (tx "sshd") l = join [nl] [tx "Status for the jail: sshd"; tx "|- Filter"; tx "|  `- Currently failed:" ++ [tab] ++ tx "1"; tx "`- Actions"; tx "   |- Currently banned:" ++ [tab] ++ tx "2"; tx "   `- Banned IP list:" ++ [tab] ++ tx "1.2.3.4 ::1"].
Proof.
  split; [|split; [|vm_compute; reflexivity]].
  - repeat constructor; intros X; vm_compute in X; intuition discriminate.
  - repeat constructor; (eexists; eexists; split; reflexivity).
Qed.

Print Assumptions C122_files.
Print Assumptions C122_ips.
Print Assumptions C122_regex.
Print Assumptions C122_none.
Print Assumptions C122_bans.
Print Assumptions C122_break_refuted.
Print Assumptions C122_demo.
Print Assumptions C122_status.
Print Assumptions C122_all.
Print Assumptions C122_value.
Print Assumptions C122_demo_status.
