(** Properties C110 to C112: what date patterns find in lines. *)
From Coq Require Import ZifyBool ZifyNat.
From Verif Require Import Base Text Strptime_Model Strptime_Spec Strptime_Proofs4 Strptime_Props Template_Model Template_Spec Template_Spec2 Template_Proofs8 Template_Proofs Template_Proofs2 Template_Proofs3
  Template_Proofs5 Template_Proofs6 Template_Proofs7.
Local Open Scope string_scope. Local Open Scope list_scope. Local Open Scope nat_scope.

(** How to read the statements: [date_in T start line before date after parts] (Template_Spec) says that
    in [line], between [before] and [after], there is a date written as the template says, with these
    parts.  [clear] says of a pattern that one sees where each field ends.  [start] is the year in which the process started. *)

(** * C110: a date is read as it was written *)
(** If no date begins before this one, this one is found, and its parts are those that were written. *)
Theorem C110_read T start line before date after parts : started start -> items T <> [] -> beg T <> BStart ->
  clear (items T) (fin T) after -> date_in T start line before date after parts ->
  (forall b d a p, date_in T start line b d a p -> length before <= length b) ->
  match_date T start line = Some (mkF before date after parts).
Proof. intros Y N B C D F. apply read_at; try assumption. destruct (beg T); [exact F|congruence|exact F|exact F]. Qed.
(** At the beginning of a line, with up to two other characters before it if the template is for this place. *)
Theorem C110_begin T start line before date after parts : started start -> items T <> [] ->
  clear (items T) (fin T) after -> date_in T start line before date after parts ->
  (if match beg T with BStart => true | _ => false end then exists c r, date = c :: r /\ word_char c else before = []) ->
  match_date T start line = Some (mkF before date after parts).
Proof.
  intros Y N C D F. apply read_at; try assumption. destruct (beg T); [|exact F| |]; subst before; intros; cbn; lia.
Qed.
(** The time is the one that was written. *)
Theorem C110_time T start w line before date after parts dtz said y m d o t : started start -> items T <> [] ->
  clear (items T) (fin T) after -> date_in T start line before date after parts ->
  (if match beg T with BStart => true | _ => false end then exists c r, date = c :: r /\ word_char c else before = []) ->
  line_says (map (fun p => (fst p, Some (snd p))) parts) said ->
  said Year = Some y -> said Month = Some m -> said Day = Some d -> said Zone = Some o ->
  shows (mkD y m d) (clock_of said) t -> (2 <= y <= 9998)%Z ->
  get_date T start w line dtz = Some (Ok (t - 60 * o)%Z, mkF before date after parts).
Proof.
  intros Y N C D F L SY SM SD SZ SH R. unfold get_date. rewrite (C110_begin T start line before date after parts Y N C D F). cbn [f_groups].
  now rewrite (C44_instant w _ dtz said y m d o t L SY SM SD SZ SH R).
Qed.
Theorem C110_local T start w line before date after parts dtz said y m d t : started start -> items T <> [] ->
  clear (items T) (fin T) after -> date_in T start line before date after parts ->
  (if match beg T with BStart => true | _ => false end then exists c r, date = c :: r /\ word_char c else before = []) ->
  line_says (map (fun p => (fst p, Some (snd p))) parts) said ->
  said Year = Some y -> said Month = Some m -> said Day = Some d -> said Zone = None ->
  shows (mkD y m d) (clock_of said) t -> (2 <= y <= 9998)%Z -> (forall o, dtz = Some o -> exists z, zone z o) ->
  get_date T start w line dtz = Some (match dtz with Some o => Ok (t - 60 * o)%Z | None => local w t end, mkF before date after parts).
Proof.
  intros Y N C D F L SY SM SD SZ SH R Z0. unfold get_date. rewrite (C110_begin T start line before date after parts Y N C D F). cbn [f_groups].
  now rewrite (C44_default w _ said y m d t dtz L SY SM SD SZ SH R Z0).
Qed.
(** Where one does not see the end, less may be read: the hour 23 as 2. *)
Theorem C110_unclear_refuted : exists T line before date after parts f, set_pattern (tx "{UNB}%H") AtWord true = Template T /\
  date_in T 2026 line before date after parts /\ before = [] /\ after = [] /\ match_date T 2026 line = Some f /\ f_groups f <> parts.
Proof.
  exists (mkT false BNone [Tok TH] ENone), (tx "23"), [], (tx "23"), [], [("H", tx "23")], (mkF [] (tx "2") (tx "3") [("H", tx "2")]).
  split; [vm_compute; reflexivity|]. split; [|repeat split; try reflexivity; vm_compute; discriminate].
  split; [reflexivity|]. split; [|split; exact I]. apply (w_tok 2026 false TH [] (tx "23") [] [] []); [now left| |constructor].
  exists 23%Z, dec. split; [lia|]. split; [now left|reflexivity].
Qed.

(** The line of the examples *)
Definition pattern1 := tx "%a, %d %b %Y %I:%M:%S %p %z".
Definition template1 : template :=
  mkT true BWord [Tok Ta; Lit ","; Lit " "; Tok Td; Lit " "; Tok Tb; Lit " "; Tok TY; Lit " "; Tok TI; Lit ":"; Tok TM; Lit ":"; Tok TS; Lit " "; Tok Tp; Lit " "; Tok Tz] EWord.
Definition date1 := tx "Sat,  7 Nov 2026 11:59:30 PM +0530".
Definition parts1 : list (string * text) :=
  [("a", tx "Sat"); ("d", tx " 7"); ("b", tx "Nov"); ("Y", tx "2026"); ("I", tx "11"); ("M", tx "59"); ("S", tx "30"); ("p", tx "PM"); ("z", tx "+0530")].
Example C110_demo_pattern : set_pattern pattern1 AtWord true = Template template1.
Proof. vm_compute. reflexivity. Qed.
Example C110_demo_date rest : hd_error rest <> Some ":"%char -> ~ inside_word date1 rest ->
  date_in template1 2026 (date1 ++ rest) [] date1 rest parts1 /\ clear (items template1) (fin template1) rest.
Proof.
  intros H E. split.
  - split; [reflexivity|]. split; [|split; [|exact E]].
    + assert (X : In (length date1, parts1) (ways true 2026 (items template1) date1)) by (vm_compute; tauto).
      apply ways_iff in X as [_ X]; [|unfold started; lia]. rewrite firstn_all in X. exact X.
    + intros (p & c & d & q & B & _). destruct p; discriminate.
  - cbn. assert (G : forall t c, is_digit c = false -> c <> ":"%char -> ~ may_continue t c) by (intros t c F N [_ [D0|[_ D0]]]; congruence).
    assert (K : forall c, is_digit c = false -> ~ may_continue TI c /\ ~ may_continue TM c) by (intros c F; split; intros [_ [D0|[D0 _]]]; congruence).
    repeat match goal with |- _ /\ _ => split end; try exact I; try (apply G; [reflexivity|discriminate]); try (apply K; reflexivity).
    right. split; [discriminate|]. intros _. exact H.
Qed.
Example C110_demo_says : line_says (map (fun p => (fst p, Some (snd p))) parts1) said1.
Proof.
  destruct C44_demo_line as (ND & hf & HF & A & B & U). assert (X : forall k t, In (k, Some t) (map (fun p => (fst p, Some (snd p))) parts1) <-> In (k, Some t) line1).
  { intros k t. cbn. intuition congruence. }
  split.
  - cbn. repeat constructor; cbn; intuition discriminate.
  - exists hf. split; [|split; [|split]].
    + intros (t & I1). assert (HH : half_of line1 hf) by (apply HF; exists t; now apply X). destruct hf; cbn [half_of] in *.
      * destruct HH as [HH|(u & I2 & HH)]; [exfalso; apply (HH (Some (tx "PM"))); cbn; tauto|]. right. exists u. split; [now apply X|exact HH].
      * destruct HH as (u & I2 & HH). exists u. split; [now apply X|exact HH].
    + intros k t I1. apply A. now apply X.
    + intros w n H. destruct (B w n H) as (k & t & I1 & S1). exists k, t. split; [now apply X|exact S1].
    + intros k t k' t' w n n' I1 I2. apply U; now apply X.
Qed.
Example C110_demo w dtz : get_date template1 2026 w (date1 ++ tx " sshd: failed") dtz = Some (Ok 1794076170%Z, mkF [] date1 (tx " sshd: failed") parts1).
Proof.
  destruct (C110_demo_date (tx " sshd: failed")) as [D C]; [discriminate| |].
  - intros (p & c & d & q & _ & [= <- _] & _ & W). apply word_iff in W. discriminate.
  - rewrite (C110_time template1 2026 w (date1 ++ tx " sshd: failed") [] date1 (tx " sshd: failed") parts1 dtz said1 2026 11 7 330 1794095970);
      [reflexivity|unfold started; lia|discriminate|exact C|exact D|reflexivity|apply C110_demo_says|reflexivity|reflexivity|reflexivity|reflexivity|apply C44_demo_day|lia].
Qed.

(** * C111: what is found is a date as the pattern says, and nothing of this kind is missed *)
Theorem C111_found T start line f : started start -> items T <> [] -> match_date T start line = Some f ->
  date_in T start line (f_before f) (f_date f) (f_after f) (f_groups f).
Proof. intros. now apply found_date. Qed.
Theorem C111_nothing T start line : started start -> items T <> [] ->
  match_date T start line = None <-> forall b d a p, ~ date_in T start line b d a p.
Proof.
  intros Y N. split.
  - intros H b d a p D. exact (date_found T start line b d a p Y N D H).
  - intros H. destruct (match_date T start line) as [f|] eqn:E; [|reflexivity]. exfalso. exact (H _ _ _ _ (found_date T start line f Y N E)).
Qed.
(** It is the first, unless the template is for the beginning of lines. *)
Theorem C111_first T start line f b d a p : started start -> items T <> [] -> beg T <> BStart ->
  match_date T start line = Some f -> date_in T start line b d a p -> length (f_before f) <= length b.
Proof. intros. now apply (found_first T start line f b d a p). Qed.
(** Every field takes exactly the texts of the specification: nothing else, and all of them. *)
Theorem C111_field start ignore t s : started start -> lang ignore (token_re start t) s <-> field_text start ignore t s.
Proof. apply field_iff. Qed.
(** %ExY takes all years from 2000 until three years after the start. *)
Theorem C111_years start ignore n : started start -> (2000 <= n <= start + 3)%Z -> field_text start ignore ExY (dec n).
Proof.
  intros Y N. exists n, dec. split; [|split; [now left|reflexivity]]. unfold started in Y.
  pose proof (Z.div_mod (start + 3) 10 ltac:(lia)). pose proof (Z.mod_pos_bound (start + 3) 10 ltac:(lia)). lia.
Qed.
(** But a process that runs for longer can miss the dates of a new decade: one that started in 2026 does not find
    those of 2030. *)
Theorem C111_decade_refuted : exists T, set_pattern (tx "%ExY-%Exm-%Exd") AtWord true = Template T /\
  match_date T 2026 (tx "2029-12-31") <> None /\ match_date T 2026 (tx "2030-01-01") = None.
Proof. eexists. split; [vm_compute; reflexivity|]. split; vm_compute; [discriminate|reflexivity]. Qed.
(** What is found need not be a time: the hour of %k goes up to 29, and the seconds up to 61. *)
Theorem C111_time_refuted : exists T line f, set_pattern (tx "%Y-%m-%d %k:%M:%S") AtWord true = Template T /\
  forall w dtz, get_date T 2026 w line dtz = Some (Err ValueErr, f).
Proof.
  exists (mkT false BWord [Tok TY; Lit "-"; Tok Tm; Lit "-"; Tok Td; Lit " "; Tok Tk; Lit ":"; Tok TM; Lit ":"; Tok TS] EWord), (tx "2026-11-07 29:59:30"). eexists.
  split; [vm_compute; reflexivity|]. intros w dtz. vm_compute. reflexivity.
Qed.
Example C111_demo : match_date template1 2026 (tx "x" ++ date1) = None /\ match_date template1 2026 (date1 ++ tx "5") = None
  /\ exists f, match_date template1 2026 (tx "at " ++ date1 ++ tx ".") = Some f /\ f_before f = tx "at " /\ f_date f = date1.
Proof.
  split; [vm_compute; reflexivity|]. split; [vm_compute; reflexivity|].
  exists (mkF (tx "at ") date1 (tx ".") parts1). split; [vm_compute; reflexivity|]. split; reflexivity.
Qed.

(** * C112: what the text of a pattern means *)
(** A pattern with a mark or none before and after, written as the manual says (Template_Spec2): its fields and characters
    are those that were written, in this order, and the marks say where a date may begin and end. *)
Theorem C112_pattern f l k w e : (f = FLine -> w <> Anywhere) -> l <> [] -> plain_front l -> plain_back l -> ~ In (Lit newline) l -> NoDup (parts_of l) ->
  exists T, set_pattern (front_text f ++ pattern_text l ++ back_text k) w e = Template T /\
    items T = l /\ beg T = begins f w /\ fin T = ends f k e /\ (ci T = true <-> has_names l).
Proof.
  intros FL N PF PB NL ND. eexists. split; [now apply set_pattern_text|]. cbn. repeat (split; [reflexivity|]). apply named_spec.
Qed.
(** The same with what it finds: at the beginning of a line, the date is read with the parts that were written. *)
Theorem C112_read f l k w e start line date after parts : (f = FLine -> w <> Anywhere) -> begins f w <> BStart ->
  l <> [] -> plain_front l -> plain_back l -> ~ In (Lit newline) l -> NoDup (parts_of l) ->
  started start -> clear l (ends f k e) after -> ends_well (ends f k e) date after ->
  line = date ++ after -> wrote start false l date parts ->
  exists T, set_pattern (front_text f ++ pattern_text l ++ back_text k) w e = Template T /\
    match_date T start line = Some (mkF [] date after parts).
Proof.
  intros FL NB N PF PB NL ND Y C EW L W. exists (mkT (named false l) (begins f w) l (ends f k e)). split; [now apply set_pattern_text|].
  apply C110_begin; try assumption; cbn [items beg fin ci].
  - split; [exact L|]. cbn [items beg fin ci app]. split; [|split; [|exact EW]].
    + destruct (named false l); [|exact W]. now apply wrote_ignore.
    + destruct (begins f w); try exact I; try reflexivity; [|congruence]. intros (p & c & d & q & B & _). destruct p; discriminate.
  - destruct (begins f w); try reflexivity. congruence.
Qed.
(** No part may be named twice. *)
Theorem C112_twice_refuted : set_pattern (tx "%Y-%m-%d %ExY") AtWord true = Broken.
Proof. vm_compute. reflexivity. Qed.
(** A pattern that begins with a field that may have a blank for a digit does not work (unless it has names): the blank
    of its expression is stripped, and what is left is no expression. *)
Theorem C112_blank_refuted : exists l, l <> [] /\ plain_back l /\ ~ In (Lit newline) l /\ NoDup (parts_of l) /\ set_pattern (pattern_text l) AtWord true = Broken.
Proof.
  exists [Tok Tk; Lit ":"; Tok TM]. split; [discriminate|]. split; [|split; [|split; [|vm_compute; reflexivity]]].
  - intros r c E. destruct r as [|? [|? [|? [|]]]]; discriminate.
  - cbn. intuition discriminate.
  - cbn. repeat constructor; cbn; intuition discriminate.
Qed.
(** One that ends with a dollar that stands for itself does not work. *)
Theorem C112_dollar_refuted : exists l, l <> [] /\ plain_front l /\ ~ In (Lit newline) l /\ NoDup (parts_of l) /\ set_pattern (pattern_text l) AtWord true = Broken.
Proof.
  exists [Tok TH; Lit ":"; Tok TM; Lit "$"]. split; [discriminate|]. split; [|split; [|split; [|vm_compute; reflexivity]]].
  - cbn. intuition discriminate.
  - cbn. intuition discriminate.
  - cbn. repeat constructor; cbn; intuition discriminate.
Qed.
(** Directly after a percent sign, names are found in lower case only: Jan is found after another character but not
    after a percent sign. *)
Theorem C112_percent_refuted : exists T1 T2, set_pattern (tx "@%b") AtWord true = Template T1 /\ set_pattern (tx "%%%b") AtWord true = Template T2 /\
  match_date T1 2026 (tx "@Jan") <> None /\ match_date T2 2026 (tx "%Jan") = None.
Proof. do 2 eexists. split; [vm_compute; reflexivity|]. split; [vm_compute; reflexivity|]. split; vm_compute; [discriminate|reflexivity]. Qed.
Example C112_demo_text : tx "{^LN-BEG}%Y\.%m\.%d 100%% %H:%M:%S$" =
  front_text FLine ++ pattern_text [Tok TY; Lit "."; Tok Tm; Lit "."; Tok Td; Lit " "; Lit "1"; Lit "0"; Lit "0"; Lit "%"; Lit " "; Tok TH; Lit ":"; Tok TM; Lit ":"; Tok TS] ++ back_text KDollar.
Proof. vm_compute. reflexivity. Qed.
Example C112_demo : let l := items template1 in
  plain_front l /\ plain_back l /\ ~ In (Lit newline) l /\ NoDup (parts_of l) /\ has_names l /\ pattern_text l = pattern1.
Proof.
  cbn zeta. split; [cbn; intuition discriminate|]. split.
  - intros r c E. apply (f_equal (fun x => last x Any)) in E. rewrite last_last in E. discriminate.
  - split; [cbn; intuition discriminate|]. split; [cbn; repeat constructor; cbn; intuition discriminate|]. split; [|vm_compute; reflexivity].
    apply named_spec. reflexivity.
Qed.

Print Assumptions C110_read.
Print Assumptions C110_begin.
Print Assumptions C110_time.
Print Assumptions C110_local.
Print Assumptions C110_unclear_refuted.
Print Assumptions C111_found.
Print Assumptions C111_nothing.
Print Assumptions C111_first.
Print Assumptions C111_field.
Print Assumptions C111_years.
Print Assumptions C111_decade_refuted.
Print Assumptions C111_time_refuted.
Print Assumptions C112_pattern.
Print Assumptions C112_read.
Print Assumptions C112_twice_refuted.
Print Assumptions C112_blank_refuted.
Print Assumptions C112_dollar_refuted.
Print Assumptions C112_percent_refuted.
