(** Property C28, first part: which addresses a filter ignores.  (That ignored failures are not
    counted is shown with the filter, in Filter_Props.) *)
From Coq Require Import Permutation.
From Verif Require Import Base Text Regex IPAddr_Model IPAddr_Spec IPAddr_Proofs2 IPAddr_Props Utils_Model Ignore_Model Ignore_Spec Ignore_Proofs.
Require Import ZifyBool ZifyNat.

Definition after_ops (ops : list ign_op) : ign := fst (ign_run ign_init ops).
Definition replies (ops : list ign_op) : list bool := snd (ign_run ign_init ops).
Definition no_bracket_file (ops : list ign_op) : Prop := forall s, In (IAdd s) ops -> ~ bracket_file s.
Definition asked (ops : list ign_op) (w : world) (q : query) : option bool := snd (in_ignore (after_ops ops) w q).

(** After any history of commands the replies to them determine entries in force. *)
Theorem C28_entries ops : no_bracket_file ops -> exists L, in_force [] ops (replies ops) L.
Proof. intros N. apply in_force_exists; [apply rel_init|exact N]. Qed.

(** Whatever was added, deleted and set before, without a cache: an address is reported as ignored
    if and only if own addresses are ignored and it is one of them, or an entry in force covers it,
    or the command set answers 0. *)
Theorem C28_ignored ops L w q : no_bracket_file ops -> no_cache ops -> in_force [] ops (replies ops) L -> sane_world w -> address (q_ip q) ->
  asked ops w q = Some true <-> ignored ops L w q.
Proof.
  intros N C F W A. unfold asked, after_ops. unfold replies in F. destruct (ign_run ign_init ops) as [g bs] eqn:E. cbn [fst snd] in *.
  pose proof (run_options _ _ _ _ E) as (O1 & O2 & O3). assert (R : rel g L) by (eapply rel_run; eauto using rel_init).
  unfold in_ignore. rewrite O3 by (auto; reflexivity). change (snd (check_ignore g w q "")) with (decided g w q). rewrite (decided_true g w q L A W R).
  unfold ignored. rewrite O1, O2. reflexivity.
Qed.
(** There is no answer at all, but an exception, only if neither of the first two holds and the
    command cannot be started; in all other cases the answer is yes or no. *)
Theorem C28_answered ops L w q : no_bracket_file ops -> no_cache ops -> in_force [] ops (replies ops) L -> sane_world w -> address (q_ip q) ->
  asked ops w q = None <-> ~ (last_self true ops = true /\ exists o, In o (w_own w) /\ lies_in w (q_ip q) o) /\ ~ (exists s, In s L /\ covers w s (q_ip q)) /\
    last_command [] ops <> [] /\ w_run w (q_expand q (last_command [] ops)) = None.
Proof.
  intros N C F W A. unfold asked, after_ops. unfold replies in F. destruct (ign_run ign_init ops) as [g bs] eqn:E. cbn [fst snd] in *.
  pose proof (run_options _ _ _ _ E) as (O1 & O2 & O3). assert (R : rel g L) by (eapply rel_run; eauto using rel_init).
  change (last_self true ops) with (last_self (g_self ign_init) ops). change (last_command [] ops) with (last_command (g_cmd ign_init) ops). rewrite <- O1, <- O2.
  unfold in_ignore. rewrite O3 by (auto; reflexivity). rewrite <- (rel_covers w (q_ip q) g L) by auto.
  assert (So : ipset_mem (w_resolve w) (q_ip q) (ipset_of (w_own w)) = true <-> exists o, In o (w_own w) /\ lies_in w (q_ip q) o) by (apply set_of_lies; [exact A|apply W]).
  rewrite <- So. unfold check_ignore. destruct (g_self g); destruct (ipset_mem _ _ _); cbn [andb];
    destruct (set_mem (q_ip q) (g_set g)); cbn [orb snd]; try (destruct (existsb _ _)); cbn [snd];
    destruct (g_cmd g) as [|c r]; cbn [snd]; try destruct (w_run _ _); cbn [snd]; intuition congruence.
Qed.

(** As long as no file was added, every address, network or name is accepted (unless its netmask is
    none); a file always is. *)
Theorem C28_accepted ops L s : no_bracket_file ops -> in_force [] ops (replies ops) L -> (forall t n, In t L -> ~ names_file t n) \/ (exists n, names_file s n) ->
  ip_new s CUnspec <> None -> snd (ign_step (after_ops ops) (IAdd s)) = true.
Proof.
  intros N F D Ms. unfold after_ops. unfold replies in F. destruct (ign_run ign_init ops) as [g bs] eqn:E. cbn [fst snd] in *.
  assert (R : rel g L) by (eapply rel_run; eauto using rel_init). cbn [ign_step]. unfold add_ignore. destruct s as [|c s0]; [reflexivity|]. set (s := c :: s0) in *.
  destruct (file_name s) as [f|] eqn:Ef; [reflexivity|]. destruct D as [D|[n D]]; [|apply file_name_spec in D; congruence].
  destruct (ip_new s CUnspec) as [ip|] eqn:Ei; [|congruence]. destruct (set_mem ip (g_set g)); [reflexivity|].
  assert (H : forall l, (forall e, In e l -> In e (kept g)) -> list_has ip l <> None).
  { induction l as [|[n|x] l IH]; cbn; intros I; [discriminate| |].
    - exfalso. destruct (rel_in g L (EFile n) R) as (t & It & Et); [apply I; now left|]. unfold den in Et. destruct (file_name t) as [m|] eqn:Ft.
      + apply file_name_spec in Ft. now apply D in Ft.
      + destruct (ip_new t CUnspec); discriminate.
    - destruct (ip_eq x ip); [discriminate|]. apply IH. intros e Ie. apply I. now right. }
  specialize (H (g_list g)). destruct (list_has ip (g_list g)) as [[]|]; [reflexivity|destruct (is_single ip); reflexivity|].
  exfalso. apply H; auto. intros e Ie. unfold kept. apply in_or_app. now right.
Qed.
(** Deleting is accepted for a file, a network or a name in force, however it is written, and for a
    single address in its usual text, as the list of ignored addresses shows it. *)
Theorem C28_deleted ops L s t : no_bracket_file ops -> in_force [] ops (replies ops) L -> In t L -> same_entry s t ->
  (forall a, ip_new s CUnspec = Some a -> is_single a = true -> ntoa a = s) -> snd (ign_step (after_ops ops) (IDel s)) = true.
Proof.
  intros N F It Se Ca. unfold after_ops. unfold replies in F. destruct (ign_run ign_init ops) as [g bs] eqn:E. cbn [fst snd] in *.
  assert (R : rel g L) by (eapply rel_run; eauto using rel_init). pose proof (R_ok _ _ R) as O.
  assert (Ds : den s <> None).
  { destruct Se as [(n & Hs & _)|(Hs & _ & a & b & Ea & _)]; [rewrite (den_file _ _ Hs); discriminate|]. apply no_file_spec in Hs. unfold den. rewrite Hs, Ea. discriminate. }
  apply same_entry_den in Se; [|exact Ds]. destruct (rel_back g L t R It) as (e & Ie & Ee). rewrite <- Se in Ee.
  assert (LR : In e (g_list g) -> list_remove s (g_list g) <> None).
  { assert (Es : entry_ok e -> entry_is s e = true).
    { intros Oe. unfold den in Ee. destruct (file_name s) as [f|] eqn:Ef.
      - destruct e as [n|x]; [|discriminate]. injection Ee as ->. cbn [entry_is]. rewrite Ef. apply eqb_refl.
      - destruct (ip_new s CUnspec) as [y|] eqn:Ey; [|discriminate]. destruct e as [n|x]; [discriminate|]. cbn [entry_is]. rewrite Ey.
        apply ip_eq_canon; [exact Oe|now exists s|]. cbn in Ee. congruence. }
    intros I. assert (X : entry_is s e = true) by (apply Es; rewrite Forall_forall in O; apply O; unfold kept; apply in_or_app; now right).
    clear - I X. induction (g_list g) as [|a l IH]; [contradiction|]. cbn. destruct I as [->|I]; [rewrite X; discriminate|].
    destruct (entry_is s a); [discriminate|]. apply IH in I. destruct (list_remove s l); [discriminate|contradiction]. }
  cbn [ign_step]. unfold del_ignore. unfold kept in Ie. apply in_app_or in Ie as [Ie|Ie].
  - apply in_map_iff in Ie as (x & <- & Ix). unfold den in Ee. destruct (file_name s) as [f|] eqn:Ef; [discriminate|].
    destruct (ip_new s CUnspec) as [y|] eqn:Ey; [|discriminate]. assert (Cy : canon y = canon x) by (cbn in Ee; congruence).
    assert (Fx : fromtext x) by (apply ok_set in O; rewrite Forall_forall in O; auto).
    assert (Sx : is_single x = true) by (pose proof (R_single _ _ R) as S; rewrite Forall_forall in S; auto).
    assert (Sy : is_single y = true) by (revert Sx; unfold is_single; injection Cy as -> _ -> _; auto).
    assert (X : set_is s x = true).
    { unfold set_is. rewrite <- (canon_ntoa _ _ Cy), (Ca y eq_refl Sy), eqb_refl, Ey. cbn [andb]. apply ip_eq_canon; [exact Fx|now exists s|]. now symmetry. }
    assert (Sr : set_remove s (g_set g) <> None).
    { clear - Ix X. induction (g_set g) as [|a l IH]; [contradiction|]. cbn. destruct Ix as [->|I]; [rewrite X; discriminate|].
      destruct (set_is s a); [discriminate|]. apply IH in I. destruct (set_remove s l); [discriminate|contradiction]. }
    destruct (set_remove s (g_set g)); [reflexivity|contradiction].
  - apply LR in Ie. destruct (list_remove s (g_list g)); [|contradiction]. destruct (file_name s); [reflexivity|]. destruct (set_remove s (g_set g)); reflexivity.
Qed.

(** ** with a cache *)
Lemma str_inj a b : str a = str b -> a = b.
Proof. unfold str. intros H. rewrite <- (list_ascii_of_string_of_list_ascii a), <- (list_ascii_of_string_of_list_ascii b). now rewrite H. Qed.
Lemma In_dset {V} (k : string) (v : V) x d : In x (dset k v d) -> x = (k, v) \/ In x d.
Proof.
  induction d as [|[k' v'] d IH]; cbn; [intuition|]. destruct (eqb_spec k k') as [->|N]; cbn; intuition.
Qed.
Lemma In_evict {V} t m x (l : dict string (V * Z)) : In x (evict t m l) -> In x l.
Proof. induction l as [|[k [v e]] l IH]; cbn; [auto|]. destruct (_ && _); auto. Qed.
Lemma run_snoc ops o : forall g, fst (ign_run g (ops ++ [o])) = fst (ign_step (fst (ign_run g ops)) o).
Proof.
  induction ops as [|a ops IH]; intros g; cbn.
  - destruct (ign_step g o); reflexivity.
  - destruct (ign_step g a) as [g1 b]. specialize (IH g1). destruct (ign_run g1 (ops ++ [o])), (ign_run g1 ops). exact IH.
Qed.
Definition answered_by (ops : list ign_op) (k : text) (ttl : Z) (key : string) (v : bool) (e : Z) : Prop :=
  exists ops1 w q ops2, ops = ops1 ++ IQuery w q :: ops2 /\ cache_kept ops2 /\ str (q_expand q k) = key /\ decided (after_ops ops1) w q = Some v /\ e = w_now w + ttl.
Definition cached_ok (ops : list ign_op) : Prop :=
  match g_cache (after_ops ops) with
  | None => last_cache None ops = None
  | Some (k, c) => last_cache None ops = Some (k, ca_max c, ca_ttl c) /\ forall key v e, In (key, (v, e)) (ca_list c) -> answered_by ops k (ca_ttl c) key v e
  end.
Lemma last_cache_snoc ops o c : last_cache c (ops ++ [o]) = match o with ICache x => x | _ => last_cache c ops end.
Proof. revert c. induction ops as [|a ops IH]; intros c; cbn; [now destruct o|]. destruct a; auto. Qed.
Lemma answered_more ops o k t key v e : (forall c, o <> ICache c) -> answered_by ops k t key v e -> answered_by (ops ++ [o]) k t key v e.
Proof.
  intros N (o1 & w & q & o2 & -> & K & H). exists o1, w, q, (o2 ++ [o]). split; [now rewrite <- app_assoc|]. split; [|exact H].
  intros c I. apply in_app_or in I as [I|[I|[]]]; [now apply K in I|now apply N in I].
Qed.
Lemma decided_cache g c w q : decided (with_cache c g) w q = decided g w q.
Proof. unfold decided, check_ignore, remember. cbn [with_cache g_self g_set g_list g_cmd g_cache]. repeat match goal with |- context [match ?x with _ => _ end] => destruct x end; reflexivity. Qed.
Lemma cached_all ops : cached_ok ops.
Proof.
  induction ops as [|o ops IH] using rev_ind; [reflexivity|]. unfold cached_ok, after_ops in *. rewrite run_snoc, last_cache_snoc. set (g := fst (ign_run ign_init ops)) in *.
  assert (Same : forall g', g_cache g' = g_cache g -> (forall c, o <> ICache c) -> match g_cache g' with None => last_cache None ops = None
     | Some (k, c) => last_cache None ops = Some (k, ca_max c, ca_ttl c) /\ forall key v e, In (key, (v, e)) (ca_list c) -> answered_by (ops ++ [o]) k (ca_ttl c) key v e end).
  { intros g' -> N. destruct (g_cache g) as [[k c]|]; [|exact IH]. destruct IH as [H1 H2]. split; [exact H1|]. intros. apply answered_more; auto. }
  destruct o as [s|s| |x|c|[[[k m] t]|]|w q].
  - apply Same; [|discriminate]. cbn. unfold add_ignore. repeat match goal with |- context [match ?x with _ => _ end] => destruct x end; reflexivity.
  - apply Same; [|discriminate]. cbn [ign_step]. unfold del_ignore. repeat match goal with |- context [match ?x with _ => _ end] => destruct x end; reflexivity.
  - apply Same; [reflexivity|discriminate].
  - apply Same; [reflexivity|discriminate].
  - apply Same; [reflexivity|discriminate].
  - cbn. split; [reflexivity|]. contradiction.
  - reflexivity.
  - cbn [ign_step fst]. unfold in_ignore. destruct (g_cache g) as [[k c]|] eqn:C.
    + destruct IH as [H1 H2]. assert (G : forall key v e c', fst (ca_get c (w_now w) (str (q_expand q k))) = c' -> In (key, (v, e)) (ca_list c') ->
        answered_by (ops ++ [IQuery w q]) k (ca_ttl c) key v e /\ True).
      { intros key v e c' <- I. split; [|exact Logic.I]. apply answered_more; [discriminate|]. apply H2. unfold ca_get in I.
        destruct (dget (str (q_expand q k)) (ca_list c)) as [[v' e']|]; [|exact I]. destruct (e' >? w_now w); [exact I|]. cbn in I. now apply In_ddel in I. }
      assert (M : ca_max (fst (ca_get c (w_now w) (str (q_expand q k)))) = ca_max c /\ ca_ttl (fst (ca_get c (w_now w) (str (q_expand q k)))) = ca_ttl c).
      { unfold ca_get. repeat match goal with |- context [match ?x with _ => _ end] => destruct x end; split; reflexivity. }
      destruct (ca_get c (w_now w) (str (q_expand q k))) as [c' [b|]]; cbn [fst] in *; destruct M as [M1 M2].
      { cbn [with_cache g_cache fst]. rewrite M1, M2. split; [exact H1|]. intros. eapply G; eauto. }
      pose proof (check_answer (with_cache (Some (k, c')) g) w q (str (q_expand q k))) as CA. rewrite decided_cache in CA.
      assert (Kp : match g_cache (with_cache (Some (k, c')) g) with Some (k0, c0) => k0 = k /\ ca_max c0 = ca_max c /\ ca_ttl c0 = ca_ttl c /\ forall key v e, In (key, (v, e)) (ca_list c0) -> answered_by (ops ++ [IQuery w q]) k (ca_ttl c) key v e | None => False end).
      { cbn. repeat split; auto. intros. eapply G; eauto. }
      assert (Rm : forall v, decided g w q = Some v -> match g_cache (remember (with_cache (Some (k, c')) g) w (str (q_expand q k)) v) with Some (k0, c0) => k0 = k /\ ca_max c0 = ca_max c /\ ca_ttl c0 = ca_ttl c /\
        forall key v e, In (key, (v, e)) (ca_list c0) -> answered_by (ops ++ [IQuery w q]) k (ca_ttl c) key v e | None => False end).
      { intros v Dv. cbn. repeat split; auto. intros key v' e I. apply In_dset in I as [I|I].
        - injection I as -> -> ->. exists ops, w, q, []. repeat split; auto; [intros x []|congruence].
        - eapply G; eauto. destruct (Nat.leb _ _); [now apply In_evict in I|exact I]. }
      assert (Fin : match g_cache (fst (check_ignore (with_cache (Some (k, c')) g) w q (str (q_expand q k)))) with Some (k0, c0) => k0 = k /\ ca_max c0 = ca_max c /\ ca_ttl c0 = ca_ttl c /\
        forall key v e, In (key, (v, e)) (ca_list c0) -> answered_by (ops ++ [IQuery w q]) k (ca_ttl c) key v e | None => False end).
      { revert CA Rm Kp. generalize (with_cache (Some (k, c')) g) as g1. generalize (decided g w q). intros d g1. unfold check_ignore.
        repeat match goal with |- context [match ?x with _ => _ end] => lazymatch x with g_cache _ => fail | _ => destruct x end end; cbn [fst snd]; intros <- Rm Kp; first [exact Kp|exact (Rm _ eq_refl)]. }
      destruct (g_cache (fst (check_ignore (with_cache (Some (k, c')) g) w q (str (q_expand q k))))) as [[k0 c0]|]; [|contradiction].
      destruct Fin as (-> & -> & -> & F4). auto.
    + assert (X : g_cache (fst (check_ignore g w q "")) = None).
      { unfold check_ignore, remember. rewrite C. repeat match goal with |- context [match ?x with _ => _ end] => destruct x end; exact C. }
      rewrite X. exact IH.
Qed.
Lemma cached_answer ops w q v : asked ops w q = Some v ->
  decided (after_ops ops) w q = Some v \/
  exists ops1 w' q' ops2 k m ttl, last_cache None ops = Some (k, m, ttl) /\ ops = ops1 ++ IQuery w' q' :: ops2 /\ cache_kept ops2 /\
    q_expand q' k = q_expand q k /\ decided (after_ops ops1) w' q' = Some v /\ w_now w < w_now w' + ttl.
Proof.
  unfold asked, in_ignore. pose proof (cached_all ops) as H. unfold cached_ok in H. destruct (g_cache (after_ops ops)) as [[k c]|] eqn:C.
  - destruct H as [H1 H2]. unfold ca_get. destruct (dget (str (q_expand q k)) (ca_list c)) as [[v' e]|] eqn:D.
    + destruct (Z.gtb_spec e (w_now w)) as [G|G]; cbn [snd]; rewrite ?check_answer, ?decided_cache; auto.
      intros E. injection E as ->. right. apply dget_In in D. apply H2 in D as (o1 & w' & q' & o2 & -> & K & Ek & Dv & ->).
      exists o1, w', q', o2, k, (ca_max c), (ca_ttl c). repeat (split; [solve [auto]|]). split; [now apply str_inj|]. split; [exact Dv|lia].
    + rewrite check_answer, decided_cache. auto.
  - rewrite check_answer. auto.
Qed.

Lemma decided_ignored ops L w q v : no_bracket_file ops -> in_force [] ops (replies ops) L -> sane_world w -> address (q_ip q) ->
  decided (after_ops ops) w q = Some v -> (v = true <-> ignored ops L w q).
Proof.
  intros N F W A. unfold after_ops. unfold replies in F. destruct (ign_run ign_init ops) as [g bs] eqn:E. cbn [fst snd] in *.
  pose proof (run_options _ _ _ _ E) as (O1 & O2 & O3). assert (R : rel g L) by (eapply rel_run; eauto using rel_init).
  pose proof (decided_true g w q L A W R) as D. unfold ignored. rewrite O1, O2 in D. intros E'. rewrite E' in D. cbn [g_self g_cmd ign_init] in D. rewrite <- D. split; congruence.
Qed.
(** With a cache: an answer is the one the rules give now, or the one they gave to an earlier query
    with the same key, less than the caching time ago, and with the same cache. *)
Theorem C28_cached ops L w q v : no_bracket_file ops -> in_force [] ops (replies ops) L -> sane_world w -> address (q_ip q) -> asked ops w q = Some v ->
  (v = true <-> ignored ops L w q) \/
  exists ops1 w' q' ops2 k m ttl L1, last_cache None ops = Some (k, m, ttl) /\ ops = ops1 ++ IQuery w' q' :: ops2 /\ cache_kept ops2 /\
    q_expand q' k = q_expand q k /\ w_now w < w_now w' + ttl /\
    in_force [] ops1 (replies ops1) L1 /\ (sane_world w' -> address (q_ip q') -> (v = true <-> ignored ops1 L1 w' q')).
Proof.
  intros N F W A H. apply cached_answer in H as [H|(o1 & w' & q' & o2 & k & m & ttl & H1 & -> & H3 & H4 & H5 & H6)]; [left; eapply decided_ignored; eauto|right].
  assert (N1 : no_bracket_file o1) by (intros s I; apply N, in_or_app; now left). destruct (C28_entries o1 N1) as (L1 & F1).
  exists o1, w', q', o2, k, m, ttl, L1. repeat (split; [solve [auto]|]). intros. eapply decided_ignored; eauto.
Qed.

(** ** examples *)
Definition ipt (s : text) : ipaddr := match ip_new s CUnspec with Some ip => ip | None => mkIp FUnspec 0 0 [] end.
Definition plain (s : string) : query := mkQ (ipt (tx s)) (fun t => t).
Definition demo_ops : list ign_op := [IAdd (tx "127.0.0.1"); IAdd (tx "192.0.2.0/24"); IAdd (tx "192.0.2.9/24"); IAdd (tx "file:///etc/ign"); ISelf false; IDel (tx "192.0.2.0/255.255.255.0"); IAdd (tx "file:x")].
Example C28_demo : no_bracket_file demo_ops /\ no_cache demo_ops /\ in_force [] demo_ops (replies demo_ops) [tx "127.0.0.1"; tx "file:///etc/ign"; tx "file:x"] /\
  sane_world w0 /\ address (q_ip (plain "127.0.0.1")) /\ asked demo_ops w0 (plain "127.0.0.1") = Some true /\ asked demo_ops w0 (plain "192.0.2.7") = Some false.
Proof.
  assert (Nf : forall s, file_name s = None -> forall n, ~ names_file s n) by (intros s; apply no_file_spec).
  split; [|split; [|split; [|split; [|split; [reflexivity|split; vm_compute; reflexivity]]]]].
  - intros s I (t & ->). cbn in I. intuition discriminate.
  - intros c I. cbn in I. intuition discriminate.
  - replace (replies demo_ops) with (repeat true 7) by (vm_compute; reflexivity). unfold demo_ops. cbn [repeat].
    eapply F_cons; [apply E_new; [discriminate|apply Nf; reflexivity|intros t []]|]. cbn [app].
    eapply F_cons; [apply E_new; [discriminate|apply Nf; vm_compute; reflexivity|]|].
    { intros t [<-|[]] S. apply same_entry_den in S; [|vm_compute; discriminate]. vm_compute in S. discriminate. }
    cbn [app]. eapply F_cons; [apply (E_again _ _ (tx "192.0.2.0/24")); [apply Nf; vm_compute; reflexivity|cbn; auto|apply same_entry_den; vm_compute; [discriminate|reflexivity]]|].
    eapply F_cons; [apply (E_file _ _ (tx "/etc/ign")); apply file_name_spec; vm_compute; reflexivity|]. cbn [app].
    eapply F_cons; [apply E_other; exact I|].
    eapply F_cons; [apply (E_del [tx "127.0.0.1"] (tx "192.0.2.0/24") [tx "file:///etc/ign"]); apply same_entry_den; vm_compute; [discriminate|reflexivity]|]. cbn [app].
    eapply F_cons; [apply (E_file _ _ (tx "x")); apply file_name_spec; vm_compute; reflexivity|]. apply F_nil.
  - split; intros; contradiction.
Qed.

(** ** Findings *)
(** Behind a file no address that is not yet there can be added: comparing it with the file raises. *)
Theorem C28_behind_file_refuted : exists ops, ops = [IAdd (tx "file:///etc/ign"); IAdd (tx "192.0.2.1")] /\ replies ops = [true; false] /\ asked ops w0 (plain "192.0.2.1") = Some false.
Proof. eexists. split; [reflexivity|]. vm_compute. auto. Qed.
(** "file:/etc/ign" names the relative file etc/ign. *)
Theorem C28_file_slash_refuted : names_file (tx "file:/etc/ign") (tx "etc/ign").
Proof. apply file_name_spec. vm_compute. reflexivity. Qed.
(** The manual allows a raw string in ignoreip; an ID that is this very string is not ignored. *)
Theorem C28_raw_string_refuted : exists ops, ops = [IAdd (tx "john")] /\ replies ops = [true] /\ asked ops w0 (plain "john") = Some false.
Proof. eexists. split; [reflexivity|]. vm_compute. auto. Qed.
(** A single address can be deleted only by its usual text. *)
Theorem C28_delete_spelling_refuted : exists ops, ops = [IAdd (tx "192.0.2.1/32"); IDel (tx "192.0.2.1/32")] /\ replies ops = [true; false] /\ asked ops w0 (plain "192.0.2.1") = Some true.
Proof. eexists. split; [reflexivity|]. vm_compute. auto. Qed.
(** With a cache an address added to the list is still reported as not ignored, and one deleted as
    ignored, until the cached answer is forgotten. *)
Definition cache_ops : list ign_op := [ICache (Some (tx "key", 100%nat, 300)); IQuery w0 (plain "192.0.2.1")].
Theorem C28_cache_stale_refuted : asked (cache_ops ++ [IAdd (tx "192.0.2.1")]) w0 (plain "192.0.2.1") = Some false /\
  asked ([IAdd (tx "192.0.2.0/24")] ++ cache_ops ++ [IClear]) w0 (plain "192.0.2.1") = Some true.
Proof. vm_compute. auto. Qed.
Example C28_cached_demo : asked cache_ops w0 (plain "192.0.2.1") = Some false /\ last_cache None cache_ops = Some (tx "key", 100%nat, 300). Proof. vm_compute. auto. Qed.

Print Assumptions C28_entries.
Print Assumptions C28_ignored.
Print Assumptions C28_answered.
Print Assumptions C28_accepted.
Print Assumptions C28_deleted.
Print Assumptions C28_cached.
Print Assumptions C28_demo.
Print Assumptions C28_behind_file_refuted.
Print Assumptions C28_file_slash_refuted.
Print Assumptions C28_raw_string_refuted.
Print Assumptions C28_delete_spelling_refuted.
Print Assumptions C28_cache_stale_refuted.
