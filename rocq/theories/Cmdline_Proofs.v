(** Proofs about the command line. *)
From Verif Require Import Base Text Cmdline_Model Cmdline_Spec.
Local Open Scope string_scope. Local Open Scope list_scope. Local Open Scope Z_scope.

(** * Words *)
Lemma begins_iff p : forall s, begins p s = true <-> exists t, s = p ++ t.
Proof.
  induction p as [|a p IH]; intros [|b s]; cbn.
  - split; [now exists []|reflexivity].
  - split; [now exists (b :: s)|reflexivity].
  - split; [discriminate|]. intros [t E]. discriminate.
  - destruct (eqb_spec a b) as [-> |N]; cbn.
    + rewrite IH. split; intros [t E]; exists t; [now f_equal|now injection E].
    + split; [discriminate|]. intros [t E]. injection E as -> _. contradiction.
Qed.
Lemma at_eq_none s : forall p, at_eq s = (p, None) <-> s = p /\ ~ In "="%char p.
Proof.
  induction s as [|c s IH]; intros p; cbn.
  - split; [intros H; injection H as <-; split; [reflexivity|intros []]|intros [<- _]; reflexivity].
  - destruct (eqb_spec c "="%char) as [-> |N].
    + split; [discriminate|]. intros [<- H]. exfalso. apply H. now left.
    + destruct (at_eq s) as [a b] eqn:E. split.
      * intros H. injection H as <- ->. destruct (proj1 (IH a) eq_refl) as [-> I1]. split; [reflexivity|]. intros [X|X]; [congruence|contradiction].
      * intros [<- H]. assert (X : (a, b) = (s, None)) by (apply IH; split; [reflexivity|]; intros X; apply H; now right). now injection X as -> ->.
Qed.
Lemma at_eq_some s : forall p v, at_eq s = (p, Some v) <-> s = p ++ "="%char :: v /\ ~ In "="%char p.
Proof.
  induction s as [|c s IH]; intros p v; cbn.
  - split; [discriminate|]. intros [E _]. destruct p; discriminate.
  - destruct (eqb_spec c "="%char) as [-> |N].
    + split; [intros H; injection H as <- <-; split; [reflexivity|intros []]|]. intros [E H]. destruct p as [|d p]; [now injection E as <-|]. injection E as <- _. exfalso. apply H. now left.
    + destruct (at_eq s) as [a b] eqn:E. split.
      * intros H. injection H as <- ->. destruct (proj1 (IH a v) eq_refl) as [-> I1]. split; [reflexivity|]. intros [X|X]; [congruence|contradiction].
      * intros [X H]. destruct p as [|d p]; [injection X as -> _; contradiction|]. injection X as <- X.
        assert (Y : (a, b) = (p, Some v)) by (apply IH; split; [exact X|]; intros Y; apply H; now right). now injection Y as -> ->.
Qed.
Lemma names_once : NoDup (map fst long_opts).
Proof. vm_compute. repeat constructor; cbn; intuition discriminate. Qed.
Lemma letters_once : NoDup (map fst short_opts).
Proof. vm_compute. repeat constructor; cbn; intuition discriminate. Qed.
Lemma dget_of_In {K V} {EK : EqB K} (d : dict K V) k v : NoDup (map fst d) -> In (k, v) d -> dget k d = Some v.
Proof.
  induction d as [|[a b] d IH]; intros N I1; [destruct I1|]. cbn. inversion_clear N as [|? ? X Y]. destruct (eqb_spec k a) as [-> |E].
  - destruct I1 as [E|I1]; [now injection E as ->|]. exfalso. apply X. exact (in_map fst _ _ I1).
  - destruct I1 as [F|I1]; [injection F as -> ->; contradiction|]. now apply IH.
Qed.
Lemma nodup_filter {A B} (f : A * B -> bool) l : NoDup (map fst l) -> NoDup (map fst (filter f l)).
Proof.
  induction l as [|x l IH]; [trivial|]. cbn. intros N. inversion_clear N as [|? ? X Y]. destruct (f x); [|now apply IH]. cbn. constructor; [|now apply IH].
  intros I1. apply X. apply in_map_iff in I1. destruct I1 as (y & E & I1). rewrite <- E. apply in_map. now apply filter_In in I1.
Qed.
Lemma long_name_iff p n a : long_name p = Some (n, a) <-> abbreviates p n a.
Proof.
  unfold long_name, abbreviates. set (poss := filter (fun o => begins p (fst o)) long_opts).
  assert (PI : forall n' a', In (n', a') poss <-> In (n', a') long_opts /\ exists t, n' = p ++ t) by (intros n' a'; unfold poss; rewrite filter_In; cbn [fst]; now rewrite begins_iff).
  assert (ND : NoDup (map fst poss)) by (apply nodup_filter, names_once). clearbody poss.
  split.
  - destruct (dget p poss) as [b|] eqn:D.
    + intros H. injection H as <- <-. apply dget_In in D. apply PI in D. split; [apply D|now left].
    + destruct poss as [|o [|? ?]]; try discriminate. intros H. injection H as ->. destruct (proj1 (PI n a) (or_introl eq_refl)) as [I1 I2]. split; [exact I1|]. right. split; [|split; [exact I2|]].
      * intros X. apply in_map_iff in X. destruct X as ([x b] & E & X). cbn in E. subst x. assert (In (p, b) [(n, a)]) as Z by (apply PI; split; [exact X|exists []; now rewrite app_nil_r]).
        rewrite (dget_of_In _ _ _ ND Z) in D. discriminate.
      * intros n' a' J1 J2. destruct (proj2 (PI n' a') (conj J1 J2)) as [E|[]]. now injection E.
  - intros [I1 [-> |(NI & PR & U)]].
    + rewrite (dget_of_In poss n a ND); [reflexivity|]. apply PI. split; [exact I1|]. exists []. now rewrite app_nil_r.
    + destruct (dget p poss) as [b|] eqn:D.
      { exfalso. apply NI. apply dget_In, PI in D. exact (in_map fst _ _ (proj1 D)). }
      assert (I2 : In (n, a) poss) by now apply PI.
      destruct poss as [|o1 [|o2 r]]; [destruct I2|destruct I2 as [-> |[]]; reflexivity|]. exfalso.
      assert (E1 : fst o1 = n) by (destruct o1 as [x y]; destruct (proj1 (PI x y) (or_introl eq_refl)) as [J1 J2]; exact (U x y J1 J2)).
      assert (E2 : fst o2 = n) by (destruct o2 as [x y]; destruct (proj1 (PI x y) (or_intror (or_introl eq_refl))) as [J1 J2]; exact (U x y J1 J2)).
      cbn in ND. inversion_clear ND as [|? ? X _]. apply X. left. congruence.
Qed.
Lemma short_flags fs w : Forall flag fs -> short_word (fs ++ w) = match short_word w with Some (o, n) => Some (flags fs ++ o, n) | None => None end.
Proof.
  induction fs as [|c fs IH]; intros F; cbn [app short_word flags map].
  - destruct (short_word w) as [[o n]|]; reflexivity.
  - inversion_clear F as [|? ? C F']. rewrite (dget_of_In _ _ _ letters_once C), IH by exact F'. destruct (short_word w) as [[o n]|]; reflexivity.
Qed.
Lemma short_iff w : forall os n, short_word w = Some (os, n) ->
  exists fs, Forall flag fs /\ ((w = fs /\ os = flags fs /\ n = None) \/ (exists c v, w = fs ++ c :: v /\ In (c, true) short_opts /\ v <> [] /\ os = flags fs ++ [(tx "-" ++ [c], v)] /\ n = None)
    \/ (exists c, w = fs ++ [c] /\ In (c, true) short_opts /\ os = flags fs /\ n = Some (tx "-" ++ [c]))).
Proof.
  induction w as [|c w IH]; intros os n; cbn [short_word].
  - intros H. injection H as <- <-. exists []. split; [constructor|]. now left.
  - destruct (dget c short_opts) as [[|]|] eqn:D; [| |discriminate].
    + apply dget_In in D. destruct w as [|x w]; intros H; injection H as <- <-; exists []; (split; [constructor|]).
      * right. right. exists c. now repeat split.
      * right. left. exists c, (x :: w). now repeat split.
    + apply dget_In in D. destruct (short_word w) as [[o m]|] eqn:E; [|discriminate]. intros H. injection H as <- <-. destruct (IH o m eq_refl) as (fs & F & C). exists (c :: fs). split; [now constructor|].
      destruct C as [(-> & -> & ->)|[(d & v & -> & I1 & V & -> & ->)|(d & -> & I1 & -> & ->)]].
      * now left.
      * right. left. exists d, v. now repeat split.
      * right. right. exists d. now repeat split.
Qed.
Lemma app_one (a b : text) x : tx "-" ++ a = x -> begins (tx "-") x = true.
Proof. intros <-. apply begins_iff. now exists a. Qed.
Lemma word_none w os : begins (tx "-") w = true -> w <> tx "-" -> w <> tx "--" -> word w = Some (os, None) -> group os [w].
Proof.
  intros B N1 N2. unfold word. destruct (begins (tx "--") w) eqn:BB.
  - apply begins_iff in BB. destruct BB as [t ->]. cbn [tx list_ascii_of_string app skipn]. unfold long_word. destruct (at_eq t) as [p [v|]] eqn:E.
    + apply at_eq_some in E. destruct E as [-> NI]. destruct (long_name p) as [[n [|]]|] eqn:L; try discriminate. apply long_name_iff in L. intros H. injection H as <-. exact (g_long_eq p n v L NI).
    + apply at_eq_none in E. destruct E as [-> NI]. destruct (long_name p) as [[n [|]]|] eqn:L; try discriminate. apply long_name_iff in L. intros H. injection H as <-. exact (g_long p n L NI).
  - apply begins_iff in B. destruct B as [t ->]. cbn [tx list_ascii_of_string app skipn]. intros H. destruct (short_iff _ _ _ H) as (fs & F & [(-> & -> & _)|[(c & v & -> & I1 & V & -> & _)|(c & _ & _ & _ & X)]]); [| |discriminate].
    + apply (g_flags fs); [|exact F]. intros ->. now apply N1.
    + exact (g_arg fs c v F I1 V).
Qed.
Lemma word_next w os n v : begins (tx "-") w = true -> word w = Some (os, Some n) -> group (os ++ [(n, v)]) [w; v].
Proof.
  intros B. unfold word. destruct (begins (tx "--") w) eqn:BB.
  - apply begins_iff in BB. destruct BB as [t ->]. cbn [tx list_ascii_of_string app skipn]. unfold long_word. destruct (at_eq t) as [p [x|]] eqn:E.
    + destruct (long_name p) as [[m [|]]|]; discriminate.
    + apply at_eq_none in E. destruct E as [-> NI]. destruct (long_name p) as [[m [|]]|] eqn:L; try discriminate. apply long_name_iff in L. intros H. injection H as <- <-. exact (g_long_next p m v L NI).
  - apply begins_iff in B. destruct B as [t ->]. cbn [tx list_ascii_of_string app skipn]. intros H. destruct (short_iff _ _ _ H) as (fs & F & [(_ & _ & X)|[(c & x & _ & _ & _ & _ & X)|(c & -> & I1 & -> & X)]]); try discriminate.
    injection X as ->. exact (g_arg_next fs c v F I1).
Qed.
Lemma not_dash c b : In (c, b) short_opts -> c <> "-"%char.
Proof. intros I1 ->. cbn in I1. intuition discriminate. Qed.
Lemma abbr_not p n a : abbreviates p n a -> p <> [].
Proof.
  intros H ->. apply long_name_iff in H. vm_compute in H. discriminate.
Qed.
Lemma short_not w : (match w with c :: _ => c <> "-"%char | [] => True end) -> begins (tx "--") (tx "-" ++ w) = false.
Proof. destruct w as [|c w]; [reflexivity|]. intros N. cbn. destruct (eqb_spec "-"%char c); [congruence|reflexivity]. Qed.
Lemma differ (a b : text) : a <> b -> eqb a b = false.
Proof. now destruct (eqb_spec a b). Qed.
Lemma group_word o ws rest : group o ws ->
  getopt (ws ++ rest) = match getopt rest with Some (os, a) => Some (o ++ os, a) | None => None end.
Proof.
  assert (LW : forall p, p <> [] -> forall r, getopt ((tx "--" ++ p) :: r) = match long_word p with
     | None => None
     | Some (os, None) => match getopt r with Some (o, a) => Some (os ++ o, a) | None => None end
     | Some (os, Some n) => match r with [] => None | v :: r => match getopt r with Some (o, a) => Some (os ++ (n, v) :: o, a) | None => None end end end).
  { intros p NE r. destruct p as [|c p]; [contradiction|]. reflexivity. }
  assert (SW : forall c w, c <> "-"%char -> forall r, getopt ((tx "-" ++ c :: w) :: r) = match short_word (c :: w) with
     | None => None
     | Some (os, None) => match getopt r with Some (o, a) => Some (os ++ o, a) | None => None end
     | Some (os, Some n) => match r with [] => None | v :: r => match getopt r with Some (o, a) => Some (os ++ (n, v) :: o, a) | None => None end end end).
  { intros c w NE r. unfold getopt at 1. fold getopt. unfold word. rewrite short_not by exact NE.
    rewrite (differ (tx "-" ++ c :: w) (tx "-")) by discriminate. rewrite (differ (tx "-" ++ c :: w) (tx "--")) by (intros X; injection X as -> _; contradiction). reflexivity. }
  intros G. destruct G as [p n A NI|p n v A NI|p n v A NI|fs NE F|fs c v F I1 V|fs c v F I1]; cbn [app].
  - rewrite LW by exact (abbr_not _ _ _ A). unfold long_word. rewrite (proj2 (at_eq_none p p)) by (now split). rewrite (proj2 (long_name_iff _ _ _) A). reflexivity.
  - rewrite LW by exact (abbr_not _ _ _ A). unfold long_word. rewrite (proj2 (at_eq_none p p)) by (now split). rewrite (proj2 (long_name_iff _ _ _) A). reflexivity.
  - rewrite LW by (destruct p; discriminate). unfold long_word. rewrite (proj2 (at_eq_some _ p v)) by (now split). rewrite (proj2 (long_name_iff _ _ _) A). reflexivity.
  - destruct fs as [|c fs]; [contradiction|]. inversion F as [|? ? FC F']; subst. rewrite SW by exact (not_dash _ _ FC).
    rewrite <- (app_nil_r (c :: fs)) at 1. rewrite short_flags by exact F. cbn [short_word]. now rewrite app_nil_r.
  - assert (ND : match fs ++ c :: v with x :: _ => x <> "-"%char | [] => True end) by (destruct fs as [|d fs]; [exact (not_dash _ _ I1)|inversion F; subst; now apply (not_dash d false)]).
    pose proof (short_flags fs (c :: v) F) as SF. cbn [short_word] in SF. rewrite (dget_of_In _ _ _ letters_once I1) in SF. destruct v as [|x v]; [contradiction|].
    destruct (fs ++ c :: x :: v) as [|d w] eqn:E; [destruct fs; discriminate|]. rewrite SW by exact ND. now rewrite SF.
  - assert (ND : match fs ++ [c] with x :: _ => x <> "-"%char | [] => True end) by (destruct fs as [|d fs]; [exact (not_dash _ _ I1)|inversion F; subst; now apply (not_dash d false)]).
    pose proof (short_flags fs [c] F) as SF. cbn [short_word] in SF. rewrite (dget_of_In _ _ _ letters_once I1) in SF.
    destruct (fs ++ [c]) as [|d w] eqn:E; [destruct fs; discriminate|]. rewrite SW by exact ND. rewrite SF. destruct (getopt rest) as [[o a]|]; [|reflexivity]. now rewrite app_nil_r, <- app_assoc.
Qed.
Lemma spelled_word o ws rest : spelled o ws ->
  getopt (ws ++ rest) = match getopt rest with Some (os, a) => Some (o ++ os, a) | None => None end.
Proof.
  intros SP. induction SP as [|o w os ws G SP IH]; [cbn; destruct (getopt rest) as [[? ?]|]; reflexivity|].
  rewrite <- app_assoc, (group_word o w) by exact G. rewrite IH. destruct (getopt rest) as [[x a]|]; [|reflexivity]. now rewrite app_assoc.
Qed.
Lemma getopt_command a : command a -> getopt a = Some ([], a).
Proof.
  destruct a as [|w r]; [reflexivity|]. intros [-> |N]; [reflexivity|]. unfold getopt. fold getopt. destruct (begins (tx "-") w) eqn:B; [|reflexivity].
  apply begins_iff in B. destruct B as [t E]. now destruct (N t).
Qed.
Lemma getopt_inv k : forall argv os a, (length argv <= k)%nat -> getopt argv = Some (os, a) ->
  exists ws, spelled os ws /\ ((argv = ws ++ a /\ command a) \/ argv = ws ++ tx "--" :: a).
Proof.
  induction k as [|k IH]; intros [|w r] os a LE; cbn [length] in LE; try lia.
  - intros H. injection H as <- <-. exists []. split; [constructor|]. now left.
  - intros H. injection H as <- <-. exists []. split; [constructor|]. now left.
  - unfold getopt. fold getopt. destruct (begins (tx "-") w) eqn:B; cbn [negb orb].
    2:{ intros H. injection H as <- <-. exists []. split; [constructor|]. left. split; [reflexivity|]. right. intros t ->. rewrite (proj2 (begins_iff _ _)) in B; [discriminate|]. now exists t. }
    destruct (eqb_spec w (tx "-")) as [-> |N1].
    { intros H. injection H as <- <-. exists []. split; [constructor|]. left. split; [reflexivity|]. now left. }
    destruct (eqb_spec w (tx "--")) as [-> |N2].
    { intros H. injection H as <- <-. exists []. split; [constructor|]. now right. }
    destruct (word w) as [[o [n|]]|] eqn:W; [| |discriminate].
    + destruct r as [|v r]; [discriminate|]. destruct (getopt r) as [[o2 a2]|] eqn:R; [|discriminate]. intros H. injection H as <- <-.
      destruct (IH r o2 a2) as (ws & SP & C); [cbn in LE; lia|exact R|]. exists ([w; v] ++ ws). split.
      * replace (o ++ (n, v) :: o2) with ((o ++ [(n, v)]) ++ o2) by now rewrite <- app_assoc. constructor; [|exact SP]. now apply word_next.
      * destruct C as [[-> C]| ->]; [left; now split|now right].
    + destruct (getopt r) as [[o2 a2]|] eqn:R; [|discriminate]. intros H. injection H as <- <-.
      destruct (IH r o2 a2) as (ws & SP & C); [lia|exact R|]. exists ([w] ++ ws). split.
      * constructor; [|exact SP]. now apply word_none.
      * destruct C as [[-> C]| ->]; [left; now split|now right].
Qed.

(** * The options one after the other *)
Definition one (sec : text -> option Z) (x : opt) (c : conf) : handled := handle sec [x] c.
Lemma handle_cons sec x r c : handle sec (x :: r) c = match one sec x c with HConf c' => handle sec r c' | h => h end.
Proof.
  destruct x as [o v]. unfold one. cbn [handle].
  repeat match goal with |- context[if inb o ?l then _ else _] => destruct (inb o l); [try reflexivity; try (destruct (sec v); reflexivity)|] end.
  destruct (begins (tx "--") o); reflexivity.
Qed.
Definition known (o : text) : Prop := In o (map (fun p => tx "-" ++ [fst p]) short_opts ++ map (fun p => tx "--" ++ fst p) long_opts).
Lemma group_known os ws : group os ws -> Forall (fun x => known (fst x)) os.
Proof.
  assert (LK : forall p n a, abbreviates p n a -> known (tx "--" ++ n)) by (intros p n a [I1 _]; unfold known; apply in_or_app; right; exact (in_map (fun p => tx "--" ++ fst p) _ _ I1)).
  assert (SK : forall c b, In (c, b) short_opts -> known (tx "-" ++ [c])) by (intros c b I1; unfold known; apply in_or_app; left; exact (in_map (fun p => tx "-" ++ [fst p]) _ _ I1)).
  assert (FK : forall fs, Forall flag fs -> Forall (fun x => known (fst x)) (flags fs)) by (intros fs F; unfold flags; apply Forall_map; apply (Forall_impl _ (fun c (I1 : flag c) => SK c false I1) F)).
  intros G. destruct G; try (constructor; [exact (LK p n _ H)|constructor]); try (now apply FK).
  - apply Forall_app. split; [now apply FK|]. constructor; [now apply (SK c true)|constructor].
  - apply Forall_app. split; [now apply FK|]. constructor; [now apply (SK c true)|constructor].
Qed.
Lemma getopt_known argv os a : getopt argv = Some (os, a) -> Forall (fun x => known (fst x)) os.
Proof.
  intros H. destruct (getopt_inv _ _ _ _ (le_n _) H) as (ws & SP & _). clear H. induction SP as [|o w os ws G SP IH]; [constructor|]. apply Forall_app. split; [now apply (group_known o w)|exact IH].
Qed.
Definition effect (x : opt) (sec : text -> option Z) (c c' : conf) : Prop :=
  (forall k ns, In (k, ns) settings -> dget (tx k) (strs c') = if inb (fst x) (map tx ns) then Some (snd x) else dget (tx k) (strs c))
  /\ verbose c' = verbose c + (if eqb (fst x) (tx "-v") then 1 else 0) - (if eqb (fst x) (tx "-q") then 1 else 0)
  /\ background c' = (if inb (fst x) (map tx ["-b"; "-f"]) then eqb (fst x) (tx "-b") else background c)
  /\ test c' = (if inb (fst x) (map tx ["-t"; "--test"]) then true else test c)
  /\ force c' = (if inb (fst x) (map tx ["-x"]) then true else force c)
  /\ interactive c' = (if inb (fst x) (map tx ["-i"]) then true else interactive c)
  /\ is_async c' = (if inb (fst x) (map tx ["--async"]) then true else is_async c)
  /\ dump c' = (if inb (fst x) (map tx ["-d"; "--dp"; "--dump-pretty"]) then (if eqb (fst x) (tx "-d") then 1 else 2) else dump c)
  /\ (if inb (fst x) (map tx ["--timeout"]) then sec (snd x) = Some (timeout c') else timeout c' = timeout c)
  /\ inb (fst x) (map tx ending) = false.
Ltac ev := repeat match goal with
  | |- context[inb ?a (map tx ?l)] => let b := eval vm_compute in (inb a (map tx l)) in change (inb a (map tx l)) with b
  | |- context[eqb ?a (tx ?l)] => let b := eval vm_compute in (eqb a (tx l)) in change (eqb a (tx l)) with b
  | |- context[begins (tx ?l) ?a] => let b := eval vm_compute in (begins (tx l) a) in change (begins (tx l) a) with b end; cbv iota.
Ltac dd := first [rewrite dget_dset_same; reflexivity|rewrite dget_dset_other by discriminate; reflexivity|reflexivity].
Lemma one_effect sec x c c' : known (fst x) -> one sec x c = HConf c' -> effect x sec c c'.
Proof.
  destruct x as [o v]. unfold effect. cbn [fst snd]. intros K. unfold one. cbn [handle]. unfold known in K. cbn [map app short_opts long_opts fst snd In] in K.
  repeat (destruct K as [<- |K]; [ev; try discriminate; try (destruct (sec v) eqn:SV; try discriminate);
    intros H; injection H as <-; (split; [intros k ns I1; cbn [settings In] in I1; repeat (destruct I1 as [E|I1]; [injection E as <- <-; ev; cbn [strs set_str set_timeout set_verbose set_dump set_test set_force set_interactive set_background set_async]; dd|]); destruct I1|]);
    cbn [verbose background test force interactive is_async dump timeout set_str set_timeout set_verbose set_dump set_test set_force set_interactive set_background set_async]; repeat split; try lia; try assumption|]).
  destruct K.
Qed.
Lemma one_ends sec x c : known (fst x) -> inb (fst x) (map tx ending) = true -> one sec x c = HDone \/ (one sec x c = HFailed /\ sec (snd x) = None /\ fst x = tx "--str2sec").
Proof.
  destruct x as [o v]. cbn [fst snd]. intros K. unfold one. cbn [handle]. unfold known in K. cbn [map app short_opts long_opts fst snd In] in K.
  do 28 (destruct K as [<- |K]; [ev; try discriminate; intros _; try (now left); try (destruct (sec v) eqn:SV; [now left|right; now repeat split])|]). destruct K.
Qed.
Lemma one_other sec x c : known (fst x) -> inb (fst x) (map tx ending) = false -> (exists c', one sec x c = HConf c') \/ (one sec x c = HFailed /\ fst x = tx "--timeout" /\ sec (snd x) = None).
Proof.
  destruct x as [o v]. cbn [fst snd]. intros K. unfold one. cbn [handle]. unfold known in K. cbn [map app short_opts long_opts fst snd In] in K.
  do 28 (destruct K as [<- |K]; [ev; try discriminate; intros _; try (left; eexists; reflexivity); try (destruct (sec v) eqn:SV; [left; eexists; reflexivity|right; now repeat split])|]). destruct K.
Qed.
Definition effects (os : list opt) (sec : text -> option Z) (c c' : conf) : Prop :=
  (forall k ns, In (k, ns) settings -> dget (tx k) (strs c') = match last_opt ns os with Some x => Some (snd x) | None => dget (tx k) (strs c) end)
  /\ verbose c' = verbose c + count "-v" os - count "-q" os
  /\ background c' = match last_opt ["-b"; "-f"] os with Some x => eqb (fst x) (tx "-b") | None => background c end
  /\ test c' = match last_opt ["-t"; "--test"] os with Some _ => true | None => test c end
  /\ force c' = match last_opt ["-x"] os with Some _ => true | None => force c end
  /\ interactive c' = match last_opt ["-i"] os with Some _ => true | None => interactive c end
  /\ is_async c' = match last_opt ["--async"] os with Some _ => true | None => is_async c end
  /\ dump c' = match last_opt ["-d"; "--dp"; "--dump-pretty"] os with Some x => if eqb (fst x) (tx "-d") then 1 else 2 | None => dump c end
  /\ match last_opt ["--timeout"] os with Some x => sec (snd x) = Some (timeout c') | None => timeout c' = timeout c end
  /\ last_opt ending os = None.
Lemma handle_effects sec os : Forall (fun x => known (fst x)) os -> forall c c', handle sec os c = HConf c' -> effects os sec c c'.
Proof.
  unfold effects. induction os as [|x os IH]; intros F c c'.
  - intros H. injection H as <-. cbn [last_opt count]. repeat split. generalize (verbose c). clear. intros. lia.
  - inversion_clear F as [|? ? K F']. rewrite handle_cons. destruct (one sec x c) as [c1| |] eqn:O; try discriminate. intros H.
    destruct (one_effect sec x c c1 K O) as (A1 & A2 & A3 & A4 & A5 & A6 & A7 & A8 & A9 & A10). destruct (IH F' c1 c' H) as (B1 & B2 & B3 & B4 & B5 & B6 & B7 & B8 & B9 & B10).
    destruct x as [o v]. cbn [last_opt count fst snd] in *. repeat split.
    + intros k ns I1. rewrite (B1 k ns I1), (A1 k ns I1). destruct (last_opt ns os); [reflexivity|]. destruct (inb o (map tx ns)); reflexivity.
    + rewrite B2, A2. generalize (count "-v" os) (count "-q" os) (verbose c) (if eqb o (tx "-v") then 1 else 0) (if eqb o (tx "-q") then 1 else 0). clear. intros. lia.
    + rewrite B3, A3. clear - o. destruct (last_opt _ os); [reflexivity|]. destruct (inb o _); reflexivity.
    + rewrite B4, A4. clear - o. destruct (last_opt _ os); [reflexivity|]. destruct (inb o _); reflexivity.
    + rewrite B5, A5. clear - o. destruct (last_opt _ os); [reflexivity|]. destruct (inb o _); reflexivity.
    + rewrite B6, A6. clear - o. destruct (last_opt _ os); [reflexivity|]. destruct (inb o _); reflexivity.
    + rewrite B7, A7. clear - o. destruct (last_opt _ os); [reflexivity|]. destruct (inb o _); reflexivity.
    + rewrite B8, A8. clear - o. destruct (last_opt _ os); [reflexivity|]. destruct (inb o _); reflexivity.
    + destruct (last_opt ["--timeout"] os); [exact B9|]. destruct (inb o (map tx ["--timeout"])); [cbn [snd]; rewrite B9; exact A9|congruence].
    + rewrite B10. now rewrite A10.
Qed.
Lemma last_none names os : last_opt names os = None <-> ~ given names os.
Proof.
  unfold given. induction os as [|x os IH]; cbn [last_opt].
  - split; [intros _ (y & [] & _)|reflexivity].
  - destruct (last_opt names os) as [y|] eqn:L.
    + split; [discriminate|]. intros N. exfalso. assert (Q : ~ (~ exists x0, In x0 os /\ In (fst x0) (map tx names))) by (intros Q; apply IH in Q; discriminate). apply Q. intros (z & I1 & I2). apply N. exists z. split; [now right|exact I2].
    + destruct (inb (fst x) (map tx names)) eqn:I1.
      * split; [discriminate|]. intros N. exfalso. apply N. exists x. split; [now left|]. now apply inb_In.
      * split; [|reflexivity]. intros _ (z & [<- |J] & I2); [apply inb_In in I2; congruence|]. apply (proj1 IH eq_refl). now exists z.
Qed.
Lemma handle_total sec os : Forall (fun x => known (fst x)) os -> times_good sec os -> forall c, (exists c', handle sec os c = HConf c' /\ ~ given ending os) \/ (handle sec os c = HDone /\ given ending os).
Proof.
  intros F SE. induction os as [|x os IH]; intros c.
  - left. exists c. split; [reflexivity|]. intros (y & [] & _).
  - inversion_clear F as [|? ? K F']. specialize (IH F' (fun y I1 => SE y (or_intror I1))). rewrite handle_cons. destruct (inb (fst x) (map tx ending)) eqn:E.
    + right. destruct (one_ends sec x c K E) as [-> |(_ & X & Y)]; [|exfalso; apply (SE x (or_introl eq_refl)); [right; left; symmetry; exact Y|exact X]]. split; [reflexivity|]. exists x. split; [now left|]. now apply inb_In.
    + destruct (one_other sec x c K E) as [(c1 & ->)|(_ & Y & X)]; [|exfalso; apply (SE x (or_introl eq_refl)); [left; symmetry; exact Y|exact X]]. destruct (IH c1) as [(c' & H & N)|(H & (z & I1 & I2))].
      * left. exists c'. split; [exact H|]. intros (z & [<- |I1] & I2); [apply inb_In in I2; congruence|]. apply N. now exists z.
      * right. split; [exact H|]. exists z. split; [now right|exact I2].
Qed.
Lemma fill_get e ps : forall c k, dget k (strs (fill e ps c)) = match dget k (strs c) with Some v => Some v | None => if inb k ps then dget k e else None end.
Proof.
  induction ps as [|p ps IH]; intros c k; cbn [fill inb existsb]; [now destruct (dget k (strs c))|]. rewrite IH. change (existsb (eqb k) ps) with (inb k ps).
  destruct (dget p (strs c)) as [v|] eqn:P.
  - destruct (eqb_spec k p) as [-> |N]; [now rewrite P|]. destruct (dget k (strs c)); reflexivity.
  - destruct (dget p e) as [v|] eqn:Q.
    + cbn [strs set_str]. destruct (eqb_spec k p) as [-> |N]; cbn [orb]; [now rewrite dget_dset_same, P, Q|rewrite dget_dset_other by assumption; destruct (dget k (strs c)); reflexivity].
    + destruct (eqb_spec k p) as [-> |N]; cbn [orb]; [rewrite P; rewrite Q; now destruct (inb p ps)|reflexivity].
Qed.
Lemma fill_rest e ps : forall c, timeout (fill e ps c) = timeout c /\ verbose (fill e ps c) = verbose c /\ dump (fill e ps c) = dump c /\ test (fill e ps c) = test c /\ force (fill e ps c) = force c
  /\ interactive (fill e ps c) = interactive c /\ background (fill e ps c) = background c /\ is_async (fill e ps c) = is_async c.
Proof. induction ps as [|p ps IH]; intros c; cbn [fill]; [repeat split|]. destruct (dget p (strs c)); [apply IH|]. destruct (dget p e); [|apply IH]. exact (IH (set_str p _ c)). Qed.
