(** C25, C26: reading of log files. *)
From Verif Require Import Base Text LogFile_Model LogFile_Spec LogFile_Proofs LogFile_Proofs2 LogFile_Proofs3.
From Coq Require Import Lia List.
Local Open Scope nat_scope.
Import ListNotations.

Section Start.
Context (dec : bytes -> chars) (enc : chars -> bytes) (md5 : bytes -> string) (good : bytes -> Prop) (next : bytes -> option (chars * nat)).
Hypothesis md5_some : forall b, md5 b <> ""%string.
Hypothesis good_nil : good [].
Hypothesis next_read : forall d p, good (skipn p d) ->
  readline dec enc d p = match next (skipn p d) with Some (l, n) => (Some l, p + n) | None => (None, p) end.
Hypothesis next_len : forall r l n, next r = Some (l, n) -> 0 < n <= length r.
Hypothesis next_app : forall r l n x, next r = Some (l, n) -> next (r ++ x) = Some (l, n).
Hypothesis good_next : forall r l n, good r -> next r = Some (l, n) -> good (skipn n r).
Hypothesis good_cr : forall r, good r -> ends_line (raw_line r) = true -> In LF r.
Lemma inv_history : forall tail now i0 d0 ops, start_ok good tail i0 d0 ->
  fair dec enc md5 good (base tail i0 d0) ops (init md5 tail now i0 d0) ->
  Inv md5 good next (base tail i0 d0) (run dec enc md5 ops (init md5 tail now i0 d0)).
Proof.
  intros tail now i0 d0 ops [G T] F. eapply inv_run; eauto. eapply (inv_init dec enc); eauto.
  intros B. unfold base in B. rewrite Nat.eqb_refl in B. destruct tail; cbn in B; [|now destruct B].
  destruct (T eq_refl) as [->|I]; [now destruct B|exact I].
Qed.
End Start.

Section Ascii.
Context (dec : bytes -> chars) (enc : chars -> bytes) (md5 : bytes -> string).
Hypothesis md5_some : forall b, md5 b <> ""%string.
Hypothesis like : ascii_like dec.
Lemma a_history : forall tail now i0 d0 ops, start_ok no_cr_at_end tail i0 d0 ->
  fair dec enc md5 no_cr_at_end (base tail i0 d0) ops (init md5 tail now i0 d0) ->
  Inv md5 no_cr_at_end (next_a dec) (base tail i0 d0) (run dec enc md5 ops (init md5 tail now i0 d0)).
Proof.
  intros. eapply inv_history; eauto using a_nil, a_read, a_len, a_app, a_good_next, a_cr.
Qed.
End Ascii.

(** ** C25 *)
(** Whatever the writes, the schedule of the filter and the rotations: the lines taken from every file are, in order and
    each once, the first of its complete lines (from where the reading began), decoded and without the new-line. *)
Theorem C25_exactly_once : forall dec enc md5 tail now i0 d0 ops,
  (forall b, md5 b <> ""%string) -> ascii_like dec -> start_ok no_cr_at_end tail i0 d0 ->
  fair dec enc md5 no_cr_at_end (base tail i0 d0) ops (init md5 tail now i0 d0) ->
  let s := run dec enc md5 ops (init md5 tail now i0 d0) in
  forall i, exists xs rest,
    skipn (base tail i0 d0 i) (data (s_w s) i) = concat (map (fun x => x ++ [LF]) xs) ++ rest
    /\ (forall x, In x xs -> ~ In LF x)
    /\ Forall2 (fun x l => trimmed (dec (x ++ [LF])) l) xs (taken i (s_trace s)).
Proof.
  intros dec enc md5 tail now i0 d0 ops M L S F s i.
  pose proof (a_history dec enc md5 M L tail now i0 d0 ops S F) as V.
  destruct (v_path _ _ _ _ _ V i) as [m P]. apply a_prefix in P. destruct P as (xs & rest & E & _ & N & Fl). eauto.
Qed.

(** When the filter reports the end of a file, all its complete lines have been taken. *)
Theorem C25_bottom : forall dec enc md5 tail now i0 d0 ops,
  (forall b, md5 b <> ""%string) -> ascii_like dec -> start_ok no_cr_at_end tail i0 d0 ->
  fair dec enc md5 no_cr_at_end (base tail i0 d0) ops (init md5 tail now i0 d0) ->
  let s := run dec enc md5 ops (init md5 tail now i0 d0) in
  forall now' i sz, s_trace (step dec enc md5 s (Step now')) = Bottom i sz :: s_trace s ->
  sz = length (data (s_w s) i) /\
  forall xs rest, lines_of (skipn (base tail i0 d0 i) (data (s_w s) i)) xs rest ->
    Forall2 (fun x l => trimmed (dec (x ++ [LF])) l) xs (taken i (s_trace s)).
Proof.
  intros dec enc md5 tail now i0 d0 ops M L S F s now' i sz H.
  pose proof (a_history dec enc md5 M L tail now i0 d0 ops S F) as V. fold s in V.
  assert (B : all_read (next_a dec) (base tail i0 d0) (s_w s) i (s_trace s) /\ sz = length (data (s_w s) i)).
  { eapply bottom_all with (now := now'); eauto using a_nil, a_read, a_len, a_app, a_good_next, a_cr. }
  destruct B as [(m & P & N) ->]. split; [reflexivity|]. intros xs rest Ls. eapply a_lines; eauto.
Qed.

(** The filter of an active jail gets to the end of its log: after enough steps all complete lines have been taken. *)
Theorem C25_progress : forall dec enc md5 tail now i0 d0 ops,
  (forall b, md5 b <> ""%string) -> ascii_like dec -> start_ok no_cr_at_end tail i0 d0 ->
  fair dec enc md5 no_cr_at_end (base tail i0 d0) ops (init md5 tail now i0 d0) ->
  let s := run dec enc md5 ops (init md5 tail now i0 d0) in
  forall now' i, s_active s = true -> w_cur (s_w s) = Some i ->
  exists n, forall xs rest, lines_of (skipn (base tail i0 d0 i) (data (s_w s) i)) xs rest ->
    Forall2 (fun x l => trimmed (dec (x ++ [LF])) l) xs (taken i (s_trace (run dec enc md5 (repeat (Step now') n) s))).
Proof.
  intros dec enc md5 tail now i0 d0 ops M L S F s now' i A E.
  pose proof (a_history dec enc md5 M L tail now i0 d0 ops S F) as V. fold s in V.
  assert (B : exists n, all_read (next_a dec) (base tail i0 d0) (s_w s) i (s_trace (run dec enc md5 (repeat (Step now') n) s))).
  { eapply catch_up; eauto using a_nil, a_read, a_len, a_app, a_good_next, a_cr. }
  destruct B as (n & m & P & N). exists n. intros xs rest Ls. eapply a_lines; eauto.
Qed.

(** Lines taken are delivered, but for at most one each time the jail is stopped. *)
Theorem C25_stop : forall dec enc md5 tail now i0 d0 ops,
  let s := run dec enc md5 ops (init md5 tail now i0 d0) in
  losses (s_trace s) <= stops ops /\ (losses (s_trace s) = 0 -> forall i, delivered i (s_trace s) = taken i (s_trace s)).
Proof. intros. split; [apply losses_init|]. apply no_losses. Qed.

(** The same for a log in UTF-16LE, if it has no empty lines, no CR and no line beginning with a character U+xx0A. *)
Section Utf16.
Context (md5 : bytes -> string).
Hypothesis md5_some : forall b, md5 b <> ""%string.
Lemma u_history : forall tail now i0 d0 ops, start_ok utf16_text tail i0 d0 ->
  fair dec_utf16 enc_utf16 md5 utf16_text (base tail i0 d0) ops (init md5 tail now i0 d0) ->
  Inv md5 utf16_text next_u (base tail i0 d0) (run dec_utf16 enc_utf16 md5 ops (init md5 tail now i0 d0)).
Proof.
  intros. eapply inv_history; eauto using u_nil, u_read, u_len, u_app, u_good_next, u_good_cr.
Qed.
End Utf16.
Theorem C25_utf16 : forall md5 tail now i0 d0 ops,
  (forall b, md5 b <> ""%string) -> start_ok utf16_text tail i0 d0 ->
  fair dec_utf16 enc_utf16 md5 utf16_text (base tail i0 d0) ops (init md5 tail now i0 d0) ->
  let s := run dec_utf16 enc_utf16 md5 ops (init md5 tail now i0 d0) in
  (forall i, exists rest,
    skipn (base tail i0 d0 i) (data (s_w s) i) = enc_utf16 (concat (map (fun l => l ++ [10%Z]) (taken i (s_trace s)))) ++ rest
    /\ forall l, In l (taken i (s_trace s)) -> ~ In 10%Z l)
  /\ forall now' i, s_active s = true -> w_cur (s_w s) = Some i ->
     exists n rest, lines16_of (skipn (base tail i0 d0 i) (data (s_w s) i))
       (taken i (s_trace (run dec_utf16 enc_utf16 md5 (repeat (Step now') n) s))) rest.
Proof.
  intros md5 tail now i0 d0 ops M S F s.
  pose proof (u_history md5 M tail now i0 d0 ops S F) as V. fold s in V. split.
  - intros i. destruct (v_path _ _ _ _ _ V i) as [m P]. apply u_prefix in P. destruct P as (rest & E & _ & N & _).
    exists rest. split; [exact E|]. intros l Hl. now apply N.
  - intros now' i A E.
    assert (B : exists n, all_read next_u (base tail i0 d0) (s_w s) i (s_trace (run dec_utf16 enc_utf16 md5 (repeat (Step now') n) s))).
    { eapply catch_up; eauto using u_nil, u_read, u_len, u_app, u_good_next, u_good_cr. }
    destruct B as (n & m & P & N). apply u_prefix in P. destruct P as (rest & E' & _ & Nl & Er).
    exists n, rest. split; [exact E'|]. split; [exact Nl|]. intros t more Et R. apply (u_none_iff rest t more); auto. rewrite Er. exact N.
Qed.

(** ** C26 *)
(** When the log is replaced by a new file, that is read from its beginning. *)
Theorem C26_rotation : forall dec enc md5 tail now i0 d0 ops,
  (forall b, md5 b <> ""%string) -> ascii_like dec -> start_ok no_cr_at_end tail i0 d0 ->
  fair dec enc md5 no_cr_at_end (base tail i0 d0) ops (init md5 tail now i0 d0) ->
  let s := run dec enc md5 ops (init md5 tail now i0 d0) in
  forall i d now', permitted no_cr_at_end (base tail i0 d0) s (Rotate i d) -> s_active s = true ->
  taken i (s_trace s) = [] /\
  exists n, forall xs rest, lines_of d xs rest ->
    Forall2 (fun x l => trimmed (dec (x ++ [LF])) l) xs (taken i (s_trace (run dec enc md5 (repeat (Step now') n) (step dec enc md5 s (Rotate i d))))).
Proof.
  intros dec enc md5 tail now i0 d0 ops M L S F s i d now' P A.
  pose proof (a_history dec enc md5 M L tail now i0 d0 ops S F) as V. fold s in V.
  assert (V' : Inv md5 no_cr_at_end (next_a dec) (base tail i0 d0) (step dec enc md5 s (Rotate i d))).
  { eapply inv_step; eauto using a_nil, a_read, a_len, a_app, a_good_next, a_cr. }
  assert (B : exists n, all_read (next_a dec) (base tail i0 d0) (s_w (step dec enc md5 s (Rotate i d))) i (s_trace (run dec enc md5 (repeat (Step now') n) (step dec enc md5 s (Rotate i d))))).
  { eapply catch_up; eauto using a_nil, a_read, a_len, a_app, a_good_next, a_cr. }
  destruct P as (D & G & _). split; [eapply v_new; eauto|].
  destruct B as (n & m & P & N). exists n. intros xs rest Ls.
  assert (B0 : base tail i0 d0 i = 0).
  { pose proof (v_base _ _ _ _ _ V i) as X. rewrite data_new in X by assumption. cbn in X. lia. }
  unfold LogFile_Proofs.rest in P, N. rewrite B0 in P, N. cbn [step s_w skipn] in P, N.
  rewrite data_set, Nat.eqb_refl in P, N. eapply a_lines; eauto.
Qed.
(** After a restart the reading goes on with the next line not taken: those taken before and after are all lines, in order. *)
Theorem C26_restart : forall dec enc md5 tail now i0 d0 ops,
  (forall b, md5 b <> ""%string) -> ascii_like dec -> start_ok no_cr_at_end tail i0 d0 ->
  fair dec enc md5 no_cr_at_end (base tail i0 d0) ops (init md5 tail now i0 d0) ->
  let s := run dec enc md5 ops (init md5 tail now i0 d0) in
  forall i now1 now2, permitted no_cr_at_end (base tail i0 d0) s (Restart now1) -> w_cur (s_w s) = Some i -> c_h (s_c s) = None ->
  let s1 := step dec enc md5 s (Restart now1) in
  s_active s1 = true /\ taken i (s_trace s1) = taken i (s_trace s) /\
  exists n, forall xs rest, lines_of (skipn (base tail i0 d0 i) (data (s_w s) i)) xs rest ->
    exists new, taken i (s_trace (run dec enc md5 (repeat (Step now2) n) s1)) = taken i (s_trace s) ++ new /\
    Forall2 (fun x l => trimmed (dec (x ++ [LF])) l) xs (taken i (s_trace s) ++ new).
Proof.
  intros dec enc md5 tail now i0 d0 ops M L S F s i now1 now2 P E H s1.
  pose proof (a_history dec enc md5 M L tail now i0 d0 ops S F) as V. fold s in V.
  assert (V' : Inv md5 no_cr_at_end (next_a dec) (base tail i0 d0) s1).
  { eapply inv_step; eauto using a_nil, a_read, a_len, a_app, a_good_next, a_cr. }
  assert (E1 : s_w s1 = s_w s /\ s_active s1 = true /\ taken i (s_trace s1) = taken i (s_trace s)).
  { unfold s1. cbn [step]. rewrite H. unfold restart. rewrite E. auto. }
  destruct E1 as (W & A & T). split; [exact A|]. split; [exact T|].
  assert (B : exists n, all_read (next_a dec) (base tail i0 d0) (s_w s1) i (s_trace (run dec enc md5 (repeat (Step now2) n) s1))).
  { eapply catch_up; eauto using a_nil, a_read, a_len, a_app, a_good_next, a_cr. now rewrite W. }
  destruct B as (n & m & Pm & N). exists n. intros xs rest Ls.
  assert (G : exists tr, s_trace (run dec enc md5 (repeat (Step now2) n) s1) = tr ++ s_trace s1).
  { exists (s_trace (run dec enc md5 (repeat (Step now2) n) (mkSt (s_w s1) (s_c s1) (s_active s1) []))).
    replace s1 with (graft (mkSt (s_w s1) (s_c s1) (s_active s1) []) (s_trace s1)) at 1 by now destruct s1.
    rewrite run_graft. reflexivity. }
  destruct G as [tr G]. exists (taken i tr). rewrite <- T, <- taken_app, <- G. split; [reflexivity|].
  rewrite W in *. eapply a_lines; eauto.
Qed.
(** A file that was overwritten in place and is now shorter than what was read of it is read from its beginning. *)
Theorem C26_truncated : forall dec enc md5 tail now i0 d0 ops,
  (forall b, md5 b <> ""%string) -> ascii_like dec -> start_ok no_cr_at_end tail i0 d0 ->
  fair dec enc md5 no_cr_at_end (base tail i0 d0) ops (init md5 tail now i0 d0) ->
  let s := run dec enc md5 ops (init md5 tail now i0 d0) in
  forall i d now' xs rest sz, s_active s = true -> c_h (s_c s) = None -> w_cur (s_w s) = Some i ->
  looked (s_trace s) = Some (i, sz) -> In LF (firstn sz (data (s_w s) i)) ->
  skipn (base tail i0 d0 i) (data (s_w s) i) = concat (map (fun x => x ++ [LF]) xs) ++ rest -> (forall x, In x xs -> ~ In LF x) ->
  length xs = length (taken i (s_trace s)) ->
  length d < base tail i0 d0 i + length (concat (map (fun x => x ++ [LF]) xs)) -> no_cr_at_end d ->
  exists n new, taken i (s_trace (run dec enc md5 (repeat (Step now') n) (step dec enc md5 s (Truncate i d)))) = taken i (s_trace s) ++ new
    /\ forall ys rest', lines_of d ys rest' -> Forall2 (fun x l => trimmed (dec (x ++ [LF])) l) ys new.
Proof.
  intros dec enc md5 tail now i0 d0 ops M L S F s i d now' xs rest sz A H E Lk I Er Nx Lx Lt G.
  pose proof (a_history dec enc md5 M L tail now i0 d0 ops S F) as V. fold s in V.
  destruct (v_looked _ _ _ _ _ V) as (n2 & L2 & Ln & Hh). rewrite L2 in Lk. injection Lk as Ei En. 
  assert (Hs : c_hash (s_c s) <> ""%string) by (apply Hh; now rewrite Ei, En).
  destruct (v_pos _ _ _ _ _ V) as (m & Em & P). rewrite Ei in Em, P.
  assert (Ec : c_pos (s_c s) = base tail i0 d0 i + m) by (unfold place in Em; now rewrite H in Em).
  assert (X : m = length (concat (map (fun x => x ++ [LF]) xs))).
  { destruct (a_prefix _ _ _ _ P) as (xs' & rest' & Er' & Em' & Nx' & Fl). unfold LogFile_Proofs.rest in Er'. rewrite Er in Er'.
    assert (Fl' : length xs' = length (taken i (s_trace s))) by (clear - Fl; induction Fl; cbn; congruence). rewrite <- Em'. rewrite <- Fl' in Lx. clear - Er' Nx Nx' Lx.
    f_equal. revert xs' rest rest' Er' Nx Nx' Lx. induction xs as [|x xs IH]; intros [|x' xs'] rest rest' Er' Nx Nx' Lx; try discriminate; [reflexivity|].
    cbn in *. rewrite <- !app_assoc in Er'. cbn in Er'.
    assert (U : forall a b c d : bytes, ~ In LF a -> ~ In LF c -> a ++ LF :: b = c ++ LF :: d -> a = c /\ b = d).
    { clear. induction a as [|h a IH]; intros b [|k c] d Na Nc X; cbn in X.
      - injection X as X. auto.
      - injection X as X1 X2. subst k. destruct Nc. now left.
      - injection X as X1 X2. subst h. destruct Na. now left.
      - injection X as X1 X2. subst k. destruct (IH _ _ _ (fun I => Na (or_intror I)) (fun I => Nc (or_intror I)) X2). subst. auto. }
    destruct (U _ _ _ _ (Nx x (or_introl eq_refl)) (Nx' x' (or_introl eq_refl)) Er') as [-> Er''].
    f_equal. eapply IH; eauto. }
  assert (T : exists n new, let s' := run dec enc md5 (repeat (Step now') n) (step dec enc md5 s (Truncate i d)) in
    taken i (s_trace s') = taken i (s_trace s) ++ new /\ (exists m, Path (next_a dec) d new m /\ next_a dec (skipn m d) = None)).
  { eapply truncated with (bs := base tail i0 d0); eauto using a_nil, a_read, a_len, a_app, a_good_next, a_cr. lia. }
  destruct T as (n & new & T1 & (m' & Pm & N)). exists n, new. split; [exact T1|]. intros ys rest' Ly. eapply a_lines; eauto.
Qed.

(** ** Cases *)
Definition mdx (b : bytes) : string := String "h" (string_of_list_ascii b).
Lemma mdx_some : forall b, mdx b <> ""%string. Proof. discriminate. Qed.
Local Open Scope string_scope.
Definition asc (s : string) : bytes := list_ascii_of_string s.
Definition ch (s : string) : chars := dec_latin (asc s).
Definition nl : string := String "010" "".
Definition cr : string := String "013" "".
Local Notation runl := (run dec_latin enc_latin mdx).
Local Open Scope list_scope.
Definition steps (n : nat) : list op := repeat (Step 0) n.

(** a line is written in two parts, the log is rotated, the filter is stopped and started again *)
Definition demo_ops : list op :=
  [Append 0 (asc ("one" ++ nl ++ "tw"))] ++ steps 3 ++ [Append 0 (asc ("o" ++ nl ++ "three" ++ nl))] ++ steps 4
  ++ [Rotate 1 (asc ("new" ++ nl))] ++ steps 3 ++ [Stop; Append 1 (asc ("last" ++ nl)); Restart 5] ++ steps 3.
Theorem C25_demo : start_ok no_cr_at_end false 0 [] /\
  fair dec_latin enc_latin mdx no_cr_at_end (base false 0 []) demo_ops (init mdx false 0 0 []) /\
  ascii_like dec_latin /\
  let s := runl demo_ops (init mdx false 0 0 []) in
  delivered 0 (s_trace s) = [ch "one"; ch "two"; ch "three"] /\ delivered 1 (s_trace s) = [ch "new"; ch "last"].
Proof.
  assert (X : forall d : bytes, match rev d with c :: _ => Ascii.eqb c CR = false | [] => True end -> no_cr_at_end d).
  { intros d H x ->. rewrite rev_app_distr in H. cbn in H. discriminate. }
  split; [split; [apply X; exact I|discriminate]|]. split; [|split; [apply latin_like|vm_compute; auto]].
  cbn [demo_ops app steps repeat fair].
  repeat match goal with |- _ /\ _ => split | |- True => exact I | |- permitted _ _ _ (Step _) => exact I | |- permitted _ _ _ Stop => exact I end;
  match goal with
  | |- permitted _ _ _ (Append _ _) => split; [vm_compute; reflexivity|apply X; vm_compute; reflexivity]
  | |- permitted _ _ _ (Rotate _ _) => split; [vm_compute; reflexivity|split; [apply X; vm_compute; reflexivity|]]; eexists _, _; split; [vm_compute; reflexivity|vm_compute; tauto]
  | |- permitted _ _ _ (Restart _) => split; [eexists _, _; split; [vm_compute; reflexivity|vm_compute; tauto]|]; intros i H; vm_compute in H; injection H as <-; eexists; vm_compute; reflexivity
  | _ => idtac
  end.
Qed.
(** UTF-16LE, with a character U+0A0A in a line, written in two parts that end within a character *)
Definition demo16 : chars := [120; 2570; 121; 10; 122; 10]%Z.
Definition demo16_ops : list op :=
  [Append 0 (firstn 3 (enc_utf16 demo16))] ++ steps 2 ++ [Append 0 (skipn 3 (enc_utf16 demo16))] ++ steps 4.
Theorem C25_utf16_demo : start_ok utf16_text false 0 [] /\
  fair dec_utf16 enc_utf16 mdx utf16_text (base false 0 []) demo16_ops (init mdx false 0 0 []) /\
  delivered 0 (s_trace (run dec_utf16 enc_utf16 mdx demo16_ops (init mdx false 0 0 []))) = [[120; 2570; 121]; [122]]%Z.
Proof.
  assert (P : plain_text demo16).
  { split.
    - intros z H. cbn in H. repeat (destruct H as [<-|H]; [vm_compute; intuition discriminate|]). destruct H.
    - intros t1 z t2 H. unfold demo16 in H. do 7 (destruct t1 as [|? t1]; [cbn in H; try discriminate; injection H as <- <-; discriminate|cbn in H; try discriminate; injection H as _ H]). }
  split; [split; [apply u_nil|discriminate]|]. split; [|vm_compute; reflexivity].
  cbn [demo16_ops app steps repeat fair].
  repeat match goal with |- _ /\ _ => split | |- True => exact I | |- permitted _ _ _ (Step _) => exact I end;
  (split; [vm_compute; reflexivity|]).
  - exists demo16, (skipn 3 (enc_utf16 demo16)). split; [vm_compute; reflexivity|exact P].
  - exists demo16, []. split; [vm_compute; reflexivity|exact P].
Qed.
(** the log is overwritten by something shorter *)
Theorem C26_truncated_demo :
  let ops := [Append 0 (asc ("one" ++ nl ++ "two" ++ nl))] ++ steps 4 in
  let s := runl ops (init mdx false 0 0 []) in
  fair dec_latin enc_latin mdx no_cr_at_end (base false 0 []) ops (init mdx false 0 0 []) /\
  s_active s = true /\ c_h (s_c s) = None /\ w_cur (s_w s) = Some 0 /\ looked (s_trace s) = Some (0, 8) /\
  In LF (firstn 8 (data (s_w s) 0)) /\ taken 0 (s_trace s) = [ch "one"; ch "two"] /\
  taken 0 (s_trace (runl (steps 2) (step dec_latin enc_latin mdx s (Truncate 0 (asc ("new" ++ nl)))))) = [ch "one"; ch "two"; ch "new"].
Proof.
  cbn zeta. split; [|vm_compute; tauto].
  cbn [app steps repeat fair]. repeat match goal with |- _ /\ _ => split | |- True => exact I | |- permitted _ _ _ (Step _) => exact I end.
  split; [vm_compute; reflexivity|]. intros x H. apply (f_equal (@rev ascii)) in H. rewrite rev_app_distr in H. vm_compute in H. discriminate.
Qed.

(** ** Where it fails *)
(** A part of a line that ends with CR is delivered as a line: more lines are delivered than the file has. *)
Theorem C25_cr_refuted : exists ops,
  let s := runl ops (init mdx false 0 0 []) in
  (forall o, In o ops -> match o with Append _ _ | Step _ => True | _ => False end)
  /\ count_occ Ascii.ascii_dec (data (s_w s) 0) LF = 1 /\ delivered 0 (s_trace s) = [ch "a"; ch "b"].
Proof.
  exists ([Append 0 (asc ("a" ++ cr))] ++ steps 3 ++ [Append 0 (asc ("b" ++ nl))] ++ steps 3). cbn zeta. split.
  - intros o H. vm_compute in H. repeat (destruct H as [<-|H]; [exact I|]). destruct H.
  - vm_compute. auto.
Qed.
(** In a UTF-16LE log an empty line spoils the reading of what follows it. *)
Theorem C25_utf16_refuted : exists t,
  let s := run dec_utf16 enc_utf16 mdx (Append 0 (enc_utf16 t) :: steps 20) (init mdx false 0 0 []) in
  t = [97; 10; 10; 98; 10; 99; 10]%Z /\ ~ In [98%Z] (delivered 0 (s_trace s)) /\ ~ In [99%Z] (delivered 0 (s_trace s))
  /\ exists sz tr, s_trace s = Bottom 0 sz :: tr \/ s_trace s = Looked 0 sz :: tr.
Proof.
  eexists. cbn zeta. split; [reflexivity|]. split; [vm_compute; intuition discriminate|]. split; [vm_compute; intuition discriminate|].
  vm_compute. eexists _, _. auto.
Qed.
(** A line that was read when the jail was being stopped is never delivered. *)
Theorem C25_stop_refuted : exists ops,
  let s := runl ops (init mdx false 0 0 []) in
  data (s_w s) 0 = asc ("a" ++ nl ++ "b" ++ nl ++ "c" ++ nl) /\ delivered 0 (s_trace s) = [ch "a"; ch "c"] /\ s_active s = true.
Proof.
  exists ([Append 0 (asc ("a" ++ nl ++ "b" ++ nl ++ "c" ++ nl))] ++ steps 2 ++ [Stop] ++ steps 1 ++ [Restart 0] ++ steps 3).
  vm_compute. auto.
Qed.
(** If no complete line was seen in the old file, the lines of the new one are delivered twice. *)
Theorem C26_unseen_refuted : exists ops,
  let s := runl ops (init mdx false 0 0 []) in
  (forall o, In o ops -> match o with Append _ _ | Step _ | Rotate _ _ => True | _ => False end)
  /\ data (s_w s) 1 = asc ("x" ++ nl ++ "y" ++ nl) /\ delivered 1 (s_trace s) = [ch "x"; ch "y"; ch "x"; ch "y"].
Proof.
  exists ([Append 0 (asc "a")] ++ steps 2 ++ [Rotate 1 (asc ("x" ++ nl ++ "y" ++ nl))] ++ steps 8). cbn zeta. split.
  - intros o H. vm_compute in H. repeat (destruct H as [<-|H]; [exact I|]). destruct H.
  - vm_compute. auto.
Qed.
(** A file overwritten in place by more than was read of it is read on where it was, in the middle of a line. *)
Theorem C26_overwritten_refuted : exists ops,
  let s := runl ops (init mdx false 0 0 []) in
  data (s_w s) 0 = asc ("bbbb" ++ nl ++ "c" ++ nl) /\ delivered 0 (s_trace s) = [ch "a"; ch "bb"; ch "c"].
Proof.
  exists ([Append 0 (asc ("a" ++ nl))] ++ steps 3 ++ [Truncate 0 (asc ("bbbb" ++ nl ++ "c" ++ nl))] ++ steps 4).
  vm_compute. auto.
Qed.
(** If the log is another file after a restart, but has the same first line, its lines are skipped. *)
Theorem C26_same_first_line_refuted : exists ops,
  let s := runl ops (init mdx false 0 0 []) in
  data (s_w s) 1 = asc ("head" ++ nl ++ "x" ++ nl ++ "z" ++ nl) /\ delivered 1 (s_trace s) = [ch "z"].
Proof.
  exists ([Append 0 (asc ("head" ++ nl ++ "a" ++ nl))] ++ steps 4 ++ [Stop; Rotate 1 (asc ("head" ++ nl ++ "x" ++ nl ++ "z" ++ nl)); Restart 0] ++ steps 4).
  vm_compute. auto.
Qed.
(** What is written to the old file between the last reading and the rotation is never delivered. *)
Theorem C26_gap_refuted : exists ops,
  let s := runl ops (init mdx false 0 0 []) in
  data (s_w s) 0 = asc ("a" ++ nl ++ "b" ++ nl) /\ delivered 0 (s_trace s) = [ch "a"] /\ delivered 1 (s_trace s) = [ch "x"].
Proof.
  exists ([Append 0 (asc ("a" ++ nl))] ++ steps 3 ++ [Append 0 (asc ("b" ++ nl)); Rotate 1 (asc ("x" ++ nl))] ++ steps 5).
  vm_compute. auto.
Qed.

Print Assumptions C25_exactly_once.
Print Assumptions C25_bottom.
Print Assumptions C25_progress.
Print Assumptions C25_stop.
Print Assumptions C25_utf16.
Print Assumptions C26_rotation.
Print Assumptions C26_restart.
Print Assumptions C26_truncated.
Print Assumptions C25_demo.
Print Assumptions C25_utf16_demo.
Print Assumptions C26_truncated_demo.
Print Assumptions C25_cr_refuted.
Print Assumptions C25_utf16_refuted.
Print Assumptions C25_stop_refuted.
Print Assumptions C26_unseen_refuted.
Print Assumptions C26_overwritten_refuted.
Print Assumptions C26_same_first_line_refuted.
Print Assumptions C26_gap_refuted.
