(** C48: reading a configuration with its includes. *)
From Coq Require Import Relations Lia Arith.
From Verif Require Import Base Text Config_Model Config_Spec Config_Proofs Config_Proofs2 Config_Proofs3.
Local Open Scope string_scope.
Local Open Scope list_scope.
Local Open Scope nat_scope.

(** ** Demonstration files *)
Definition ini (before after : list string) (l : list (string * list (string * string))) : parsed :=
  mkF [] ((tx "INCLUDES", (match before with [] => [] | _ => [(tx "before", join ["010"%char] (map tx before))] end) ++
                          (match after with [] => [] | _ => [(tx "after", join ["010"%char] (map tx after))] end)) ::
          map (fun so => (tx (fst so), map (fun kv => (tx (fst kv), tx (snd kv))) (snd so))) l).
Definition world_of (l : list (string * parsed)) : world :=
  let d := map (fun x => (tx (fst x), snd x)) l in
  mkW (fun f => dget f d) (fun f => dmem f d) (fun f => dmem f d) (fun _ _ => []).
Lemma world_of_finite l : finitely_many (world_of l).
Proof.
  exists (map (fun x => tx (fst x)) l). intros f H. cbn in H. destruct (dget f _) as [p|] eqn:E; [|congruence]. apply dget_In in E.
  apply in_map_iff in E as ([n p0] & E & Hn). injection E as E _. apply in_map_iff. now exists (n, p0).
Qed.
Definition demo : world := world_of
  [("/etc/filter.d/sshd.conf", ini ["common.conf"] ["extra.conf"] [("Definition", [("a", "sshd"); ("b", "sshd"); ("c", "sshd")]); ("Init?family=inet6", [("x", "6")])]);
   ("/etc/filter.d/sshd.local", ini [] [] [("Definition", [("c", "local")])]);
   ("/etc/filter.d/common.conf", ini [] [] [("Definition", [("a", "common"); ("d", "common")])]);
   ("/etc/filter.d/common.local", ini [] [] [("Definition", [("d", "common.local")])]);
   ("/etc/filter.d/extra.conf", ini [] [] [("Definition", [("b", "extra"); ("c", "extra")])])].

(** A rank that falls along a relation rules out circles *)
Lemma rank_no_circle (R : text -> text -> Prop) (rank : text -> nat) : (forall a b, R a b -> rank b < rank a) -> no_circle R.
Proof.
  intros H x C. assert (G : forall a b, clos_trans _ R a b -> rank b < rank a).
  { intros a b T. induction T as [a b T|a b c _ I1 _ I2]; auto. lia. }
  specialize (G _ _ C). lia.
Qed.
Definition demo_rank (f : text) : nat := if eqb f (tx "/etc/filter.d/sshd.conf") then 1 else 0.
Lemma demo_no_circle : no_circle (leads demo).
Proof.
  apply (rank_no_circle _ demo_rank). intros a b (r & l & I & W & B). apply included_lines in I as (p & line & E & L & ->). apply expand_with_local in W as ->.
  apply dget_In in E. cbn [map] in E. destruct E as [E|[E|[E|[E|[E|[]]]]]]; injection E as <- <-; vm_compute in L.
  - destruct L as [[<-|[]]|[<-|[]]]; vm_compute in B; destruct B as [<-|B]; try (vm_compute; lia); destruct B as [<-|[]]; vm_compute; lia.
  - destruct L as [[]|[]].
  - destruct L as [[]|[]].
  - destruct L as [[]|[]].
  - destruct L as [[]|[]].
Qed.

(** ** Ending *)
(** C48: reading ends, for all files and includes, unless local versions of files drag each other in in circles; and its result does not
    depend on how much stack there is. *)
Theorem C48_terminates w names : finitely_many w -> no_circle (drags w) ->
  exists n, forall m share c, n <= m -> exists r, get_includes m w share c names = Some r.
Proof.
  intros [files Fin] NC. destruct (get_includes_ends w files Fin NC names) as [n H]. exists n. intros m share c L. specialize (H m share c L).
  destruct (get_includes m w share c names) as [r|]; [eauto|congruence].
Qed.
Theorem C48_stack w share c names n m r r' : get_includes n w share c names = Some r -> get_includes m w share c names = Some r' -> r = r'.
Proof.
  intros H H'. destruct (Nat.le_ge_cases n m) as [L|L].
  - apply (get_includes_mono _ _ _ _ _ m) in H; auto. congruence.
  - apply (get_includes_mono _ _ _ _ _ n) in H'; auto. congruence.
Qed.
(** Two files that include each other and themselves: reading ends all the same *)
Definition circle : world := world_of
  [("/c/a.conf", ini ["b.conf"] ["a.conf"] [("S", [("o", "a")])]); ("/c/b.conf", ini ["a.conf"] [] [("S", [("o", "b")])])].
Example C48_terminates_demo : finitely_many circle /\ no_circle (drags circle) /\ leads circle (tx "/c/a.conf") (tx "/c/b.conf") /\ leads circle (tx "/c/b.conf") (tx "/c/a.conf") /\
  option_map snd (get_includes 9 circle false [] [tx "/c/a.conf"]) = Some (map tx ["/c/b.conf"; "/c/a.conf"; "/c/b.conf"; "/c/a.conf"]).
Proof.
  split; [apply world_of_finite|]. split; [|split; [|split]].
  - intros x H. assert (D : exists a b, drags circle a b) by (induction H; eauto). destruct D as (a & b & r & I & W). apply expand_with_local in W.
    apply included_lines in I as (p & line & E & L & ->). apply dget_In in E. cbn [map] in E.
    destruct E as [E|[E|[]]]; injection E as <- <-; vm_compute in L; destruct L as [[<-|[]]|L]; try (vm_compute in W; discriminate).
    + destruct L as [<-|[]]. vm_compute in W. discriminate.
    + destruct L.
  - exists (tx "/c/b.conf"), (expand circle [tx "/c/b.conf"]). split; [|split; [apply with_local_expand|vm_compute; now left]].
    apply included_lines. exists (ini ["b.conf"] ["a.conf"] [("S", [("o", "a")])]), (tx "b.conf"). split; [vm_compute; reflexivity|]. split; [vm_compute; auto|vm_compute; reflexivity].
  - exists (tx "/c/a.conf"), (expand circle [tx "/c/a.conf"]). split; [|split; [apply with_local_expand|vm_compute; now left]].
    apply included_lines. exists (ini ["a.conf"] [] [("S", [("o", "b")])]), (tx "a.conf"). split; [vm_compute; reflexivity|]. split; [vm_compute; auto|vm_compute; reflexivity].
  - vm_compute. reflexivity.
Qed.

(** C48, what fails: reading ends for all files. A local file that includes the file it belongs to is read for ever. *)
Definition looped : world := world_of
  [("/etc/jail.conf", ini [] [] [("sshd", [("enabled", "true")])]); ("/etc/jail.local", ini ["jail.conf"] [] [("sshd", [("maxretry", "3")])])].
Lemma looped_local : forall n share seen c, ~ In (tx "/etc/jail.conf") seen -> dget [tx "/etc/jail.conf"; tx "/etc/jail.local"] c = None ->
  uncached n looped share seen c (tx "/etc/jail.local") = None.
Proof.
  induction n as [|n IH]; intros share seen c N D; [reflexivity|].
  cbn [uncached]. replace (w_content looped (tx "/etc/jail.local")) with (Some (ini ["jail.conf"] [] [("sshd", [("maxretry", "3")])])) by (vm_compute; reflexivity).
  cbv zeta. replace (include_lines _ (tx "before")) with [tx "jail.conf"] by (vm_compute; reflexivity). cbn [collect].
  replace (resolve (tx "/etc/jail.local") (tx "jail.conf")) with (tx "/etc/jail.conf") by (vm_compute; reflexivity).
  rewrite (proj2 (inb_false _ _) N). unfold get_includes_with.
  replace (expand looped [tx "/etc/jail.conf"]) with [tx "/etc/jail.conf"; tx "/etc/jail.local"] by (vm_compute; reflexivity). rewrite D.
  assert (C : collect (uncached n looped share (seen ++ [tx "/etc/jail.local"])) c [tx "/etc/jail.conf"; tx "/etc/jail.local"] = None).
  { cbn [collect]. destruct n as [|n]; [reflexivity|].
    replace (uncached (S n) looped share (seen ++ [tx "/etc/jail.local"]) c (tx "/etc/jail.conf")) with (Some (c, [tx "/etc/jail.conf"])).
    - rewrite IH; auto. intros H. apply in_app_iff in H as [H|[H|[]]]; auto. vm_compute in H. discriminate.
    - symmetry. cbn [uncached]. replace (w_content looped (tx "/etc/jail.conf")) with (Some (ini [] [] [("sshd", [("enabled", "true")])])) by (vm_compute; reflexivity).
      cbv zeta. replace (include_lines _ (tx "before")) with (@nil text) by (vm_compute; reflexivity).
      replace (include_lines _ (tx "after")) with (@nil text) by (vm_compute; reflexivity). reflexivity. }
  rewrite C. now destruct share.
Qed.
Theorem C48_terminates_refuted : exists w base, finitely_many w /\ config_files w base = [base ++ tx ".conf"; base ++ tx ".local"] /\
  forall n share, read_config n w share [] empty base = None.
Proof.
  exists looped, (tx "/etc/jail"). split; [apply world_of_finite|]. split; [vm_compute; reflexivity|]. intros n share.
  assert (C : get_includes n looped share [] [tx "/etc/jail.conf"; tx "/etc/jail.local"] = None).
  { unfold get_includes, get_includes_with.
    replace (expand looped [tx "/etc/jail.conf"; tx "/etc/jail.local"]) with [tx "/etc/jail.conf"; tx "/etc/jail.local"] by (vm_compute; reflexivity).
    assert (G : collect (uncached n looped share []) [] [tx "/etc/jail.conf"; tx "/etc/jail.local"] = None).
    { cbn [collect]. destruct (uncached n looped share [] [] (tx "/etc/jail.conf")) as [[c1 a]|] eqn:E; [|reflexivity].
      rewrite looped_local; [reflexivity|intros []|]. destruct n as [|n]; [discriminate|]. cbn [uncached] in E.
      replace (w_content looped (tx "/etc/jail.conf")) with (Some (ini [] [] [("sshd", [("enabled", "true")])])) in E by (vm_compute; reflexivity).
      cbv zeta in E. replace (include_lines _ (tx "before")) with (@nil text) in E by (vm_compute; reflexivity).
      replace (include_lines _ (tx "after")) with (@nil text) in E by (vm_compute; reflexivity). cbn [collect] in E. injection E as <- _. reflexivity. }
    rewrite G. destruct share; reflexivity. }
  unfold read_config. replace (config_files looped (tx "/etc/jail")) with [tx "/etc/jail.conf"; tx "/etc/jail.local"] by (vm_compute; reflexivity).
  unfold read_files. now rewrite C.
Qed.

(** ** The order *)
(** C48: the files asked for are read in their order, each followed by its local version; and each is preceded by the files it lists as
    before and followed by those it lists as after, with their local versions and includes in turn. *)
Theorem C48_order n w c names c' l : get_includes n w false c names = Some (c', l) ->
  exists a ls, asked w names a /\ l = concat ls /\ Forall2 (listing w []) a ls.
Proof.
  intros H. apply get_includes_listing in H as (ls & -> & F). exists (expand w names), ls. split; [apply asked_expand|auto].
Qed.
Example C48_order_demo : option_map snd (get_includes 9 demo false [] [tx "/etc/filter.d/sshd.conf"]) =
  Some (map tx ["/etc/filter.d/common.conf"; "/etc/filter.d/common.local"; "/etc/filter.d/sshd.conf"; "/etc/filter.d/extra.conf"; "/etc/filter.d/sshd.local"]).
Proof. vm_compute. reflexivity. Qed.
(** C48: where nothing is included in circles, sharing the configuration with other readings changes nothing. *)
Theorem C48_shared n m w c names c1 l c2 l' : finitely_many w -> no_circle (leads w) -> kept w c ->
  get_includes n w true c names = Some (c1, l) -> get_includes m w false [] names = Some (c2, l') ->
  l = l' /\ exists a ls, asked w names a /\ l = concat ls /\ Forall2 (tree w) a ls.
Proof.
  intros [files Fin] NC K H H'.
  assert (Kc : cache_ok w c).
  { clear H H'. induction K as [|n0 c0 ns c0' l0 _ IH R]; [intros ns k D; discriminate|].
    destruct (get_includes_trees n0 w true c0 ns c0' l0 NC IH R) as [Kc _]. exact Kc. }
  apply get_includes_trees in H as [_ T]; auto. apply get_includes_trees in H' as [_ T']; auto; [|intros ns k D; discriminate].
  split; [eapply trees_fun; eauto|]. destruct T as (ls & -> & F). exists (expand w names), ls. split; [apply asked_expand|auto].
Qed.
Example C48_shared_demo : finitely_many demo /\ no_circle (leads demo) /\ exists c l c1, get_includes 9 demo true [] [tx "/etc/filter.d/common.conf"] = Some (c, l) /\
  kept demo c /\ get_includes 9 demo true c [tx "/etc/filter.d/sshd.conf"] = Some (c1, map tx ["/etc/filter.d/common.conf"; "/etc/filter.d/common.local"; "/etc/filter.d/sshd.conf"; "/etc/filter.d/extra.conf"; "/etc/filter.d/sshd.local"]).
Proof.
  split; [apply world_of_finite|]. split; [apply demo_no_circle|].
  destruct (get_includes 9 demo true [] [tx "/etc/filter.d/common.conf"]) as [[c l]|] eqn:E; [|vm_compute in E; discriminate].
  exists c, l. eexists. split; [reflexivity|]. split; [eapply k_read; [apply k_new|exact E]|].
  vm_compute in E. injection E as <- <-. vm_compute. reflexivity.
Qed.
(** C48, what fails with circles: what is read depends on what was read before with the same shared configuration. *)
Theorem C48_shared_refuted : exists w c c1 l c2 l' names, finitely_many w /\ no_circle (drags w) /\ kept w c /\
  get_includes 9 w true c names = Some (c1, l) /\ get_includes 9 w true [] names = Some (c2, l') /\ l = map tx ["/c/b.conf"] /\ l' = map tx ["/c/a.conf"; "/c/a.conf"; "/c/b.conf"].
Proof.
  destruct (get_includes 9 circle true [] [tx "/c/a.conf"]) as [[c l0]|] eqn:E; [|vm_compute in E; discriminate].
  exists circle, c. do 4 eexists. exists [tx "/c/b.conf"]. destruct C48_terminates_demo as (F & D & _).
  split; [exact F|]. split; [exact D|]. split; [eapply k_read; [apply k_new|exact E]|]. vm_compute in E. injection E as <- <-.
  split; [vm_compute; reflexivity|]. split; [vm_compute; reflexivity|]. split; reflexivity.
Qed.

(** ** Values *)
(** C48: the value of an option is the last thing said of it by the files read, in their order; likewise the default of an option. *)
Theorem C48_value n w share ca names ca' c q : read_files n w share ca empty names = Some (ca', c, q) ->
  exists l, get_includes n w share ca names = Some (ca', l) /\ (Forall proper (contents w l) ->
    (forall s o, ~ known_name s -> value_of c s o = last_of (said s o (flat_map says (contents w l)))) /\
    (forall o, dget o (defaults c) = last_of (said_default o (contents w l)))).
Proof.
  unfold read_files. destruct (get_includes n w share ca names) as [[ca1 l]|]; [|discriminate]. rewrite merge_all_files. intros [= <- <- <-].
  exists l. split; auto. intros F. split.
  - intros s o K. rewrite value_merge_files by auto. apply or_else_none.
  - intros o. rewrite default_merge_files. apply or_else_none.
Qed.
(** C48: the value said before the last one stays known, as %(known/option)s. *)
Theorem C48_known n w share ca names ca' c q : read_files n w share ca empty names = Some (ca', c, q) ->
  exists l, get_includes n w share ca names = Some (ca', l) /\ (Forall proper (contents w l) ->
    Forall (fun p => Forall (fun ns => ~ known_name (fst ns)) (f_sections p)) (contents w l) ->
    forall s o, ~ known_name s -> value_of c (tx "KNOWN/" ++ s) o = before_last_of (said s o (flat_map says (contents w l)))).
Proof.
  unfold read_files. destruct (get_includes n w share ca names) as [[ca1 l]|]; [|discriminate]. rewrite merge_all_files. intros [= <- <- <-].
  exists l. split; auto. intros F G s o K.
  assert (G' : Forall (fun p => Forall (fun ns => ~ known_name (fst (normal ns))) (f_sections p)) (contents w l)).
  { eapply Forall_impl; [|exact G]. intros p Hp. eapply Forall_impl; [|exact Hp]. intros ns Hn (r & Hr). unfold normal in Hr.
    destruct (conditional (fst ns)) as [[a b]|] eqn:E; [|apply Hn; now exists r]. cbn [fst] in Hr. apply conditional_some in E as (_ & _ & W & _). subst a.
    rewrite Forall_forall in W. assert (X : is_word "/"%char = true) by (apply W; vm_compute; auto 10). discriminate. }
  pose proof (known_merge_files (contents w l) [] [] []) as H. cbn [app] in H.
  destruct (H ltac:(intros ? ? D; discriminate) F G' ltac:(intros ? ? _; split; reflexivity) s o K) as [_ R]. exact R.
Qed.
Example C48_value_demo : exists ca c q, read_files 9 demo false [] empty [tx "/etc/filter.d/sshd.conf"] = Some (ca, c, q) /\
  map (fun o => option_map string_of_list_ascii (value_of c (tx "Definition") (tx o))) ["a"; "b"; "c"; "d"; "e"] = [Some "sshd"; Some "extra"; Some "local"; Some "common.local"; None] /\
  map (fun o => option_map string_of_list_ascii (value_of c (tx "KNOWN/Definition") (tx o))) ["a"; "b"; "c"; "d"; "e"] = [Some "common"; Some "sshd"; Some "extra"; Some "common"; None] /\
  value_of c (tx "Init") (tx "x?family=inet6") = Some (tx "6").
Proof. do 3 eexists. split; [vm_compute; reflexivity|]. vm_compute. auto. Qed.
(** The section names "s?c" that are conditional *)
Theorem C48_conditional n a b : conditional n = Some (a, b) <->
  n = a ++ b /\ a <> [] /\ Forall (fun c => is_word c = true) a /\ exists x r, b = "?"%char :: x :: r.
Proof. apply conditional_some. Qed.

(** C48: a file overrides the files asked for before it and what it lists as before; it is overridden by what it lists as after, and by the
    files asked for after it. *)
Theorem C48_override n w ca names ca' c q a1 f a2 p : read_files n w false ca empty names = Some (ca', c, q) -> asked w names (a1 ++ f :: a2) ->
  w_content w f = Some p -> (forall g r, w_content w g = Some r -> proper r) ->
  exists before after rest, listing w [] f (before ++ [f] ++ after) /\ Forall2 (listing w []) a2 rest /\
    forall s o v, ~ known_name s -> last_of (said s o (says p)) = Some v ->
    (forall g r, In g (after ++ concat rest) -> w_content w g = Some r -> said s o (says r) = []) -> value_of c s o = Some v.
Proof.
  intros R As Cf Pr. destruct (C48_value _ _ _ _ _ _ _ _ R) as (l & G & V).
  assert (Fp : Forall proper (contents w l)).
  { apply Forall_forall. intros r Hr. apply in_flat_map in Hr as (g & _ & Hg). destruct (w_content w g) eqn:E; [|destruct Hg]. destruct Hg as [<-|[]]. eauto. }
  destruct (V Fp) as [V1 _]. apply get_includes_listing in G as (ls & -> & F).
  assert (Ea : expand w names = a1 ++ f :: a2).
  { destruct As as (xs & -> & Fx). unfold expand. rewrite flat_map_concat_map. f_equal.
    eapply (Forall2_fun (fun f x => exists g, local_of f g /\ x = if negb (inb g names) && w_isfile w g then [f; g] else [f]) names); [| |exact Fx].
    - intros x a b _ (g & Lg & ->) (h & Lh & ->). apply local_of_name in Lg, Lh. now subst.
    - assert (Gn : forall l, Forall2 (fun f x => exists g, local_of f g /\ x = if negb (inb g names) && w_isfile w g then [f; g] else [f]) l
        (map (fun f => f :: (if negb (inb (local_name f) names) && w_isfile w (local_name f) then [local_name f] else [])) l)); [|apply Gn].
      induction l as [|x l IH]; cbn [map]; constructor; auto. exists (local_name x). split; [apply local_name_of|]. now destruct (negb _ && _). }
  rewrite Ea in F. apply Forall2_app_inv_l in F as (l1 & l2 & F1 & F2 & ->). inversion F2 as [|? lf ? rest Hf Fr]; subst.
  inversion Hf as [? ? E|? ? p' lb la bs als E B1 A1 P1 P2]; subst; [congruence|].
  assert (p' = p) by congruence. subst p'. exists (concat bs), (concat als), rest. split; auto. split; auto.
  intros s o v K L No. rewrite V1 by auto. rewrite concat_app. cbn [concat].
  replace (concat l1 ++ (concat bs ++ [f] ++ concat als) ++ concat rest) with ((concat l1 ++ concat bs) ++ [f] ++ (concat als ++ concat rest)) by (rewrite <- !app_assoc; reflexivity).
  assert (Em : forall k, (forall g r, In g k -> w_content w g = Some r -> said s o (says r) = []) -> said s o (flat_map says (contents w k)) = []).
  { induction k as [|g k IHk]; intros Hk; [reflexivity|]. unfold contents. cbn [flat_map]. fold (contents w k). rewrite flat_map_app, said_app.
    rewrite IHk by (intros g' r Hg; apply Hk; now right). rewrite app_nil_r. destruct (w_content w g) as [r|] eqn:Eg; [|reflexivity]. cbn [flat_map]. rewrite app_nil_r.
    apply (Hk g r); auto. now left. }
  assert (Ca : forall a b, contents w (a ++ b) = contents w a ++ contents w b) by (intros; unfold contents; apply flat_map_app).
  rewrite (Ca (concat l1 ++ concat bs)), (Ca [f]). replace (contents w [f]) with [p] by (unfold contents; cbn [flat_map]; rewrite Cf; reflexivity).
  rewrite !flat_map_app. cbn [flat_map]. rewrite app_nil_r, !said_app, !last_of_app, Em by exact No. cbn [last_of rev or_else]. rewrite L. reflexivity.
Qed.
Example C48_override_demo : asked demo [tx "/etc/filter.d/sshd.conf"] ([] ++ tx "/etc/filter.d/sshd.conf" :: [tx "/etc/filter.d/sshd.local"]) /\
  (forall g r, w_content demo g = Some r -> proper r).
Proof.
  split.
  - change ([] ++ _ :: _) with (expand demo [tx "/etc/filter.d/sshd.conf"]). apply asked_expand.
  - intros g r E. apply dget_In in E. cbn [map] in E. destruct E as [E|[E|[E|[E|[E|[]]]]]]; injection E as <- <-; unfold proper, ini; cbn [f_sections map fst snd];
      repeat (apply Forall_cons; [unfold dwf; vm_compute; repeat (apply NoDup_cons; [cbn; intuition discriminate|]); apply NoDup_nil|]); apply Forall_nil.
Qed.

(** C48: a configuration is read from base.conf, all of base.d with the extension conf, base.local and all of base.d with the extension local, in this order; so base.local overrides base.conf
    and the files all of base.d with the extension conf with all they include. *)
Theorem C48_local n w ca ca' c ok base p : read_config n w false ca empty base = Some (ca', c, ok) -> w_exists w (base ++ tx ".local") = true ->
  extension (base ++ tx ".local") base (tx "local") -> w_content w (base ++ tx ".local") = Some p -> (forall g r, w_content w g = Some r -> proper r) ->
  exists before after files rest, listing w [] (base ++ tx ".local") (before ++ [base ++ tx ".local"] ++ after) /\
    asked w (config_files w base) files /\ (exists a1 a2, files = a1 ++ (base ++ tx ".local") :: a2 /\ Forall2 (listing w []) a2 rest /\
      (forall g, In g a2 -> exists h, In h (w_glob w (base ++ tx ".d") (tx ".local")) /\ (g = h \/ local_of h g))) /\
    forall s o v, ~ known_name s -> last_of (said s o (says p)) = Some v ->
    (forall g r, In g (after ++ concat rest) -> w_content w g = Some r -> said s o (says r) = []) -> value_of c s o = Some v.
Proof.
  intros R Ex Xt Cf Pr. unfold read_config in R. set (loc := base ++ tx ".local") in *.
  assert (Ef : exists f1 f2, config_files w base = f1 ++ loc :: f2 /\ incl f2 (w_glob w (base ++ tx ".d") (tx ".local"))).
  { unfold config_files. rewrite !filter_app. cbn [filter]. fold loc. rewrite Ex.
    exists ((if w_exists w (base ++ tx ".conf") then [base ++ tx ".conf"] else []) ++ filter (w_exists w) (w_glob w (base ++ tx ".d") (tx ".conf"))),
      (filter (w_exists w) (w_glob w (base ++ tx ".d") (tx ".local"))).
    split; [now rewrite <- app_assoc|]. intros g Hg. now apply filter_In in Hg. }
  destruct Ef as (f1 & f2 & Ef & Inc).
  destruct (config_files w base) as [|x0 l0] eqn:Q; [destruct f1; discriminate|]. set (names := x0 :: l0) in *.
  destruct (read_files n w false ca empty names) as [[[ca1 c1] q]|] eqn:Rf; [|discriminate]. assert (c1 = c) by congruence. subst c1. clear R.
  assert (Ln : local_name loc = loc). { unfold local_name. rewrite (splitext_ext _ _ _ Xt). reflexivity. }
  set (g1 := fun f => f :: (if negb (inb (local_name f) names) && w_isfile w (local_name f) then [local_name f] else [])).
  assert (Ee : expand w names = flat_map g1 f1 ++ loc :: flat_map g1 f2).
  { unfold expand. fold g1. rewrite Ef at 1. rewrite flat_map_app. cbn [flat_map]. f_equal. unfold g1 at 1. rewrite Ln.
    replace (inb loc names) with true; [reflexivity|]. symmetry. apply inb_In. rewrite Ef. apply in_or_app. right. now left. }
  pose proof (asked_expand w names) as As. rewrite Ee in As.
  destruct (C48_override _ _ _ _ _ _ _ _ _ _ _ Rf As Cf Pr) as (before & after & rest & L1 & L2 & V).
  exists before, after, (flat_map g1 f1 ++ loc :: flat_map g1 f2), rest. split; auto. split; auto. split; auto.
  exists (flat_map g1 f1), (flat_map g1 f2). split; auto. split; auto. intros g Hg. apply in_flat_map in Hg as (h & Hh & Hg). exists h. split; auto.
  destruct Hg as [Hg|Hg]; auto. right. destruct (negb _ && _); [|destruct Hg]. destruct Hg as [<-|[]]. apply local_name_of.
Qed.
Definition jails : world := world_of
  [("/etc/jail.conf", ini ["paths.conf"] [] [("sshd", [("maxretry", "5"); ("port", "ssh")])]); ("/etc/jail.local", ini [] [] [("sshd", [("maxretry", "3")])]); ("/etc/paths.conf", ini [] [] [])].
Example C48_local_demo : w_exists jails (tx "/etc/jail" ++ tx ".local") = true /\ extension (tx "/etc/jail" ++ tx ".local") (tx "/etc/jail") (tx "local") /\
  exists ca c, read_config 9 jails false [] empty (tx "/etc/jail") = Some (ca, c, true) /\ value_of c (tx "sshd") (tx "maxretry") = Some (tx "3") /\ value_of c (tx "sshd") (tx "port") = Some (tx "ssh").
Proof.
  split; [vm_compute; reflexivity|]. split.
  - split; [reflexivity|]. split; [vm_compute; intuition discriminate|]. split; [vm_compute; intuition discriminate|].
    exists (tx "/etc/"), "j"%char, (tx "ail"). split; [reflexivity|]. split; [vm_compute; intuition discriminate|discriminate].
  - do 2 eexists. split; [vm_compute; reflexivity|]. vm_compute. auto.
Qed.
(** C48, what fails: a file overrides what it lists as before. A file listed as before by the local version too is read again after it. *)
Definition again : world := world_of
  [("/c/x.conf", ini ["common.conf"] [] [("S", [("o", "x")])]); ("/c/x.local", ini ["common.conf"] [] []); ("/c/common.conf", ini [] [] [("S", [("o", "common")])])].
Theorem C48_again_refuted : exists w base ca c, read_config 9 w false [] empty base = Some (ca, c, true) /\ no_circle (leads w) /\
  included w (base ++ tx ".conf") (tx "/c/common.conf") /\ (exists p, w_content w (base ++ tx ".conf") = Some p /\ last_of (said (tx "S") (tx "o") (says p)) = Some (tx "x")) /\
  value_of c (tx "S") (tx "o") = Some (tx "common").
Proof.
  exists again, (tx "/c/x"). do 2 eexists. split; [vm_compute; reflexivity|]. split; [|split; [|split]].
  - apply (rank_no_circle _ (fun f => if eqb f (tx "/c/common.conf") then 0 else 1)). intros a b (r & l & I & W & B).
    apply included_lines in I as (p & line & E & L & ->). apply expand_with_local in W as ->.
    apply dget_In in E. cbn [map] in E. destruct E as [E|[E|[E|[]]]]; injection E as <- <-; vm_compute in L.
    + destruct L as [[<-|[]]|[]]; vm_compute in B. destruct B as [<-|[]]. vm_compute. lia.
    + destruct L as [[<-|[]]|[]]; vm_compute in B. destruct B as [<-|[]]. vm_compute. lia.
    + destruct L as [[]|[]].
  - apply included_lines. exists (ini ["common.conf"] [] [("S", [("o", "x")])]), (tx "common.conf"). split; [vm_compute; reflexivity|]. split; [vm_compute; auto|vm_compute; reflexivity].
  - eexists. split; vm_compute; reflexivity.
  - vm_compute. reflexivity.
Qed.
(** C48: reading succeeds iff all the files of the configuration can be read, and there are any. *)
Theorem C48_success n w ca ca' c ok base : read_config n w false ca empty base = Some (ca', c, ok) ->
  (ok = true <-> config_files w base <> [] /\ forall f, In f (config_files w base) -> w_content w f <> None).
Proof.
  unfold read_config. destruct (config_files w base) as [|x l] eqn:Q.
  - intros [= <- <- <-]. split; [discriminate|]. intros [H _]. congruence.
  - set (names := x :: l) in *. destruct (read_files n w false ca empty names) as [[[ca1 c1] q]|] eqn:Rf; [|discriminate]. intros Eq.
    assert (Eo : ok = forallb (fun f => inb f q) names && negb (eqb q [])) by congruence. rewrite Eo. clear Eo Eq.
    unfold read_files in Rf. destruct (get_includes n w false ca names) as [[ca2 full]|] eqn:G; [|discriminate]. rewrite merge_all_files in Rf.
    assert (Hq : q = filter (fun f => match w_content w f with Some _ => true | None => false end) full) by congruence.
    apply get_includes_listing in G as (ls & -> & F).
    assert (Hin : forall f, In f names -> w_content w f <> None -> In f q).
    { intros f Hf Hc. rewrite Hq. apply filter_In. split; [|destruct (w_content w f); congruence]. apply in_concat.
      assert (He : In f (expand w names)) by (unfold expand; apply in_flat_map; exists f; split; [auto|now left]).
      destruct (In_nth _ _ [] He) as (i & Hi & Ei). assert (Len : length (expand w names) = length ls) by (clear -F; induction F; cbn; auto).
      exists (nth i ls []). split; [apply nth_In; rewrite <- Len; exact Hi|].
      assert (Gf : listing w [] f (nth i ls [])).
      { rewrite <- Ei. clear -F Hi Len. revert i Hi. induction F as [|a b la lb H F IH]; intros i Hi; [cbn in Hi; lia|]. destruct i; cbn; auto. apply IH; cbn in *; lia. }
      inversion Gf as [? ? E|]; subst; [congruence|]. apply in_or_app. right. now left. }
    rewrite andb_true_iff, forallb_forall, negb_true_iff. split.
    + intros [H1 _]. split; [discriminate|]. intros f Hf. apply H1, inb_In in Hf. rewrite Hq in Hf. apply filter_In in Hf as [_ Hf]. destruct (w_content w f); congruence.
    + intros [_ H]. split; [intros f Hf; apply inb_In; auto|]. assert (In x q) by (apply Hin; [now left|apply H; now left]).
      destruct q; [contradiction|]. reflexivity.
Qed.
Example C48_success_demo : exists ca c, read_config 9 jails false [] empty (tx "/etc/jail") = Some (ca, c, true) /\ exists ca' c', read_config 9 jails false [] empty (tx "/etc/none") = Some (ca', c', false).
Proof. do 2 eexists. split; [vm_compute; reflexivity|]. do 2 eexists. vm_compute. reflexivity. Qed.

Print Assumptions C48_terminates.
Print Assumptions C48_stack.
Print Assumptions C48_terminates_refuted.
Print Assumptions C48_order.
Print Assumptions C48_shared.
Print Assumptions C48_shared_refuted.
Print Assumptions C48_value.
Print Assumptions C48_known.
Print Assumptions C48_conditional.
Print Assumptions C48_override.
Print Assumptions C48_local.
Print Assumptions C48_again_refuted.
Print Assumptions C48_success.
