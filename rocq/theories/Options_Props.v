(** Properties C68 (a name with options), C69 (lists of words) and C70 (lists of actions). *)
From Verif Require Import Base Text Options_Model Options_Spec Options_Proofs Options_Proofs2 Options_Proofs3.
Local Open Scope string_scope.
Local Open Scope list_scope.

(** ** C68: a name with options *)
(** A text is accepted exactly if it is a name, possibly with a list of options, and then every option
    has the value given last. *)
Theorem C68_options s n d : extract_options s = Some (n, d) -> exists l, full_text s n l /\ gives l d.
Proof. intros H. apply extract_exact in H as (l & F & ->). exists l. split; [exact F|]. eapply put_gives, full_names, F. Qed.
Theorem C68_accepted s n l : full_text s n l -> exists d, extract_options s = Some (n, d) /\ gives l d.
Proof. intros F. exists (fold_left put l []). split; [apply extract_exact; eauto|]. eapply put_gives, full_names, F. Qed.
Theorem C68_error s : extract_options s = None <-> forall n l, ~ full_text s n l.
Proof.
  split.
  - intros H n l F. destruct (C68_accepted s n l F) as (d & E & _). congruence.
  - intros H. destruct (extract_options s) as [[n d]|] eqn:E; [|reflexivity]. apply C68_options in E as (l & F & _). now apply H in F.
Qed.
(** Values in quotes come back as they are, up to blanks at their ends, whatever else is in them. *)
Theorem C68_quoted n (o : list (text * text)) : n <> [] -> ~ In "["%char n ->
  Forall (fun kv => option_name (fst kv) /\ ~ In dq (snd kv)) o ->
  exists d, extract_options (n ++ ["["%char] ++ join [","%char; " "%char] (map (fun kv => fst kv ++ ["="%char; dq] ++ snd kv ++ [dq]) o) ++ ["]"%char]) = Some (n, d)
            /\ gives o d.
Proof.
  intros N I F. apply C68_accepted.
  assert (K : forall w, blanks w -> options_text (w ++ join [","%char; " "%char] (map (fun kv => fst kv ++ ["="%char; dq] ++ snd kv ++ [dq]) o)) o).
  { induction F as [|[k v] o [Ho Hv] F IH]; intros w W; [rewrite app_nil_r; now constructor|]. cbn [fst snd] in *. destruct o as [|kv o].
    - cbn [map join fst snd]. change (k ++ ["="%char; dq] ++ v ++ [dq]) with (k ++ ["="%char] ++ ([dq] ++ v ++ [dq])). apply OT_last; auto. now constructor.
    - specialize (IH [" "%char] ltac:(constructor; [right; cbn; split; discriminate|constructor])). remember (kv :: o) as o' eqn:Eo.
      assert (E : join [","%char; " "%char] (map (fun kv => fst kv ++ ["="%char; dq] ++ snd kv ++ [dq]) ((k, v) :: o'))
        = k ++ ["="%char] ++ ([dq] ++ v ++ [dq]) ++ [","%char] ++ [" "%char] ++ join [","%char; " "%char] (map (fun kv => fst kv ++ ["="%char; dq] ++ snd kv ++ [dq]) o')).
      { subst o'. cbn [map join fst snd]. rewrite <- !app_assoc. cbn [app]. reflexivity. }
      rewrite E. apply OT_next; auto; constructor. exact Hv. }
  rewrite <- (app_nil_r ["]"%char]). apply F_options; auto; [constructor|]. exact (K [] (Forall_nil _)).
Qed.

(** DEMO: an action with quoted and bare values, commas and brackets in quotes, two groups, an option
    given twice. *)
Example C68_demo : extract_options (tx "iptables[port=""ssh,[2222]"", name= x y , chain='INPUT'] [port=http]")
  = Some (tx "iptables", [(tx "port", tx "http"); (tx "name", tx "x y"); (tx "chain", tx "INPUT")]).
Proof. vm_compute. reflexivity. Qed.
Example C68_demo_error : extract_options (tx "a[p=1],b") = None /\ extract_options (tx "a[p=""1""2]") = None /\ extract_options (tx "[p=1]") = None
  /\ extract_options (tx "a[p q=1]") = None.
Proof. vm_compute. auto. Qed.

(** A blank between a quoted value and the comma after it is not accepted, although blanks are accepted
    at every other place around a comma, and there too if the value is not quoted. *)
Theorem C68_blank_refuted : exists s s', extract_options (tx "a[p=""1"" ,q=2]") = None
  /\ extract_options (tx "a[p=1 ,q=2]") = Some (tx "a", s) /\ extract_options (tx "a[p=""1"", q=2]") = Some (tx "a", s').
Proof. do 2 eexists. vm_compute. auto. Qed.
(** If the comma between two options is missing, the text is accepted and the second option becomes a
    part of the value of the first. *)
Theorem C68_missing_comma_refuted : extract_options (tx "a[p=1 q=2]") = Some (tx "a", [(tx "p", tx "1 q=2")]).
Proof. vm_compute. reflexivity. Qed.

(** ** C69: lists of words *)
(** The words are exactly those between blanks and commas, in order; none is empty. *)
Theorem C69_words s l : splitwords s false = l <-> words_text s l.
Proof. apply words_exact. Qed.
(** With comments: exactly the words before the comment of each line, in order. *)
Theorem C69_comments s l : splitwords s true = l <-> exists ls, Forall2 (fun line ws => words_text (before_comment true line) ws) (split nl s) ls /\ l = concat ls.
Proof.
  rewrite comments_exact. split.
  - intros <-. exists (map (fun line => splitwords (before_comment true line) false) (split nl s)). split; [|now rewrite flat_map_concat_map].
    induction (split nl s) as [|x r IH]; constructor; auto. now apply words_exact.
  - intros (ls & F & ->). induction F as [|x w r ws H _ IH]; [reflexivity|]. cbn [flat_map concat]. rewrite IH. f_equal. now apply words_exact.
Qed.
(** DEMO: a file with addresses. *)
Example C69_demo : splitwords (tx " 10.0.0.1,, 10.0.0.2" ++ [nl] ++ tx "# nobody" ++ [nl] ++ tx "10.0.0.3 ; only here" ++ [nl] ++ tx "ab;c#d,e #f") true
  = [tx "10.0.0.1"; tx "10.0.0.2"; tx "10.0.0.3"; tx "ab;c#d"; tx "e"].
Proof. vm_compute. reflexivity. Qed.
Example C69_demo_plain : splitwords (tx "a,b # c") false = [tx "a"; tx "b"; tx "#"; tx "c"].
Proof. vm_compute. reflexivity. Qed.
(** A comment directly behind a comma is not a comment but a word. *)
Theorem C69_comma_comment_refuted : splitwords (tx "10.0.0.1,# the gateway") true = [tx "10.0.0.1"; tx "#"; tx "the"; tx "gateway"].
Proof. vm_compute. reflexivity. Qed.

(** ** C70: lists of actions *)
(** A list of actions, each a name possibly with options, between blanks of any kind, is read as exactly
    these actions with exactly these options. *)
Theorem C70_actions s L : actions_text s L ->
  exists r, read_actions (split_with_options s) = Some r /\ Forall2 (fun nl nd => fst nd = fst nl /\ gives (snd nl) (snd nd)) L r.
Proof.
  intros H. exists (map (fun nl => (fst nl, fold_left put (snd nl) [])) L). split; [now apply actions_ok|]. apply actions_names in H. induction H as [|[n l] L F _ IH]; [constructor|].
  cbn [map]. constructor; [|exact IH]. cbn [fst snd] in *. split; [reflexivity|]. now apply put_gives.
Qed.
(** DEMO: two actions, the first with options over several lines and with quoted blanks. *)
Definition demo_actions : text :=
  tx " ab[p=""x, ]y"",q='1 2'][" ++ [nl] ++ tx "r=3]" ++ [nl] ++ tx "  cd".
Example C70_demo : actions_text demo_actions
  [(tx "ab", [(tx "p", tx "x, ]y"); (tx "q", tx "1 2"); (tx "r", tx "3")]); (tx "cd", [])].
Proof.
  assert (B : blank " "%char) by (right; cbn; split; discriminate). assert (BN : blank nl) by (left; cbn; split; discriminate).
  assert (ON : forall c, name_char c -> option_name [c]) by (split; [discriminate|constructor; [assumption|constructor]]).
  assert (NC : forall c, (97 <= char_code c <= 122)%Z -> name_char c) by (intros; right; right; left; auto).
  assert (AN : forall a b, ~ blank a -> ~ blank b -> a <> "["%char -> b <> "["%char -> action_name [a; b]) by (split; [discriminate|constructor; [now split|constructor; [now split|constructor]]]).
  assert (NB : forall c, (97 <= char_code c <= 122)%Z -> ~ blank c) by (unfold blank; intros; lia).
  change demo_actions with ([" "%char] ++ (tx "ab[p=""x, ]y"",q='1 2'][" ++ [nl] ++ tx "r=3]") ++ ([nl] ++ tx "  cd")).
  apply AS_more; [constructor; [exact B|constructor]| |exact BN|].
  - change (tx "ab[p=""x, ]y"",q='1 2'][" ++ [nl] ++ tx "r=3]")
      with (tx "ab" ++ ["["%char] ++ [] ++ (tx "p" ++ ["="%char] ++ ([dq] ++ tx "x, ]y" ++ [dq]) ++ [","%char] ++ [] ++
              (tx "q" ++ ["="%char] ++ ([sq] ++ tx "1 2" ++ [sq]) ++ (["]"%char] ++ [] ++ ["["%char]) ++ [nl] ++ (tx "r" ++ ["="%char] ++ tx "3"))) ++ ["]"%char]).
    apply A_options; [apply AN; try (apply NB; cbn; split); discriminate|constructor|].
    apply OL_next; [apply ON, NC; cbn; split; discriminate|constructor; cbn; intuition discriminate|constructor|constructor|].
    apply OL_next; [apply ON, NC; cbn; split; discriminate|constructor; cbn; intuition discriminate|constructor; constructor|constructor; [exact BN|constructor]|].
    apply OL_last; [apply ON, NC; cbn; split; discriminate|]. apply PV_bare; [cbn; intuition discriminate|cbn; intuition discriminate|]. intros q v' [= <- _]. split; discriminate.
  - change ([nl] ++ tx "  cd") with ((nl :: tx "  ") ++ tx "cd" ++ []). apply AS_more; [constructor; [exact BN|constructor; [exact B|constructor; [exact B|constructor]]]| |exact I|constructor; constructor].
    apply A_name. apply AN; try (apply NB; cbn; split); discriminate.
Qed.
Example C70_demo_read : read_actions (split_with_options demo_actions)
  = Some [(tx "ab", [(tx "p", tx "x, ]y"); (tx "q", tx "1 2"); (tx "r", tx "3")]); (tx "cd", [])].
Proof. vm_compute. reflexivity. Qed.
(** Blanks between the name of an action and its options are accepted when the list is split, but they
    then belong to the name, so that an action with that name is looked for. *)
Theorem C70_blank_before_bracket_refuted : split_with_options (tx "ab [p=1] cd") = [tx "ab [p=1]"; tx "cd"]
  /\ read_actions (split_with_options (tx "ab [p=1] cd")) = Some [(tx "ab ", [(tx "p", tx "1")]); (tx "cd", [])].
Proof. vm_compute. auto. Qed.

Print Assumptions C68_options.
Print Assumptions C68_accepted.
Print Assumptions C68_error.
Print Assumptions C68_quoted.
Print Assumptions C68_demo.
Print Assumptions C68_demo_error.
Print Assumptions C68_blank_refuted.
Print Assumptions C68_missing_comma_refuted.
Print Assumptions C69_words.
Print Assumptions C69_comments.
Print Assumptions C69_demo.
Print Assumptions C69_demo_plain.
Print Assumptions C69_comma_comment_refuted.
Print Assumptions C70_actions.
Print Assumptions C70_demo.
Print Assumptions C70_demo_read.
Print Assumptions C70_blank_before_bracket_refuted.
