(** Proofs about sessions: the cache and whole histories. *)
From Verif Require Import Base Text IPAddr_Model Utils_Model Utils_Proofs Lines_Model Session_Model Session_Spec Session_Proofs.
From Coq Require Import ZifyBool ZifyNat.
Local Open Scope string_scope.
Local Open Scope list_scope.

(** ** identifying *)
Definition same_but_ip (f f' : fail) : Prop := exists i, f' = with_ip i f.
Lemma same_ip_refl f : same_but_ip f f.
Proof. exists (f_ip f). destruct f; reflexivity. Qed.
Lemma identify_spec raw dns ses f : let get := gtext (f_groups f) in
  match get "fid", get "ip4", get "ip6", get "dns" with
  | None, None, None, None => identify raw dns ses f = if ses then (VWait, with_pending true f) else (VNone, f)
  | _, _, _, _ => same_but_ip f (snd (identify raw dns ses f)) /\
      fst (identify raw dns ses f) = match who raw dns get with None => VError | Some ids => VFound ids (snd (identify raw dns ses f)) end
  end.
Proof.
  cbn zeta. unfold identify, who.
  assert (S : forall ip c, let r := match ip_new ip c with
        | None => (VError, f)
        | Some a => match gtext (f_groups f) "fid" with
            | None => (VFound [a] f, f)
            | Some i => if eqb i ip then (VFound [a] f, f) else match ip_new i (if raw then CRaw else CUnspec) with Some b => (VFound [b] (with_ip (Some a) f), with_ip (Some a) f) | None => (VError, with_ip (Some a) f) end
            end
        end in same_but_ip f (snd r) /\ fst r = match with_id raw (gtext (f_groups f)) ip c with None => VError | Some ids => VFound ids (snd r) end).
  { intros ip c. unfold with_id. destruct (ip_new ip c) as [a|]; cbn zeta; [|split; [apply same_ip_refl|reflexivity]].
    destruct (gtext (f_groups f) "fid") as [i|]; [|split; [apply same_ip_refl|reflexivity]].
    destruct (eqb_spec i ip) as [->|N].
    - destruct (list_eq_dec Ascii.ascii_dec ip ip); [|congruence]. split; [apply same_ip_refl|reflexivity].
    - destruct (list_eq_dec Ascii.ascii_dec i ip); [congruence|]. destruct (ip_new i _); cbn; (split; [now exists (Some a)|reflexivity]). }
  assert (M : forall v6, cidr_of f v6 = mask_of (gtext (f_groups f)) v6) by reflexivity.
  destruct (gtext (f_groups f) "ip4") as [ip|] eqn:E4.
  { rewrite M. destruct (mask_of _ false) as [c|]; [|destruct (gtext _ "fid"); split; try apply same_ip_refl; reflexivity]. pose proof (S ip c) as H. cbn zeta in H.
    destruct (gtext (f_groups f) "fid") as [i|]; exact H. }
  destruct (gtext (f_groups f) "ip6") as [ip|] eqn:E6.
  { rewrite M. destruct (mask_of _ true) as [c|]; [|destruct (gtext _ "fid"); split; try apply same_ip_refl; reflexivity]. pose proof (S ip c) as H. cbn zeta in H.
    destruct (gtext (f_groups f) "fid") as [i|]; exact H. }
  destruct (gtext (f_groups f) "dns") as [n|] eqn:Ed.
  { destruct raw; [|destruct (gtext _ "fid"); split; try apply same_ip_refl; reflexivity]. pose proof (S n CRaw) as H. cbn zeta in H.
    destruct (gtext (f_groups f) "fid") as [i|]; exact H. }
  destruct (gtext (f_groups f) "fid") as [i|] eqn:Ef; [|reflexivity].
  destruct (ip_new i _) as [a|]; cbn; [rewrite eqb_refl|]; (split; [apply same_ip_refl|reflexivity]).
Qed.

(** ** one match *)
Lemma see_none c o : session_of o = None -> fst (see c o) = c.
Proof. unfold session_of, see, take_match. rewrite field_gtext. intros ->. reflexivity. Qed.

Lemma ordinary_special k : ordinary k -> ~ special k.
Proof. unfold ordinary, special. cbn. intuition. Qed.
(** what is claimed of the verdict *)
Definition right_verdict (o : seen) (es : list event) (v : verdict) : Prop :=
  let e := s_event o in
  if quiet e es then v = VQuiet
  else if no_idb (e :: es) then v = VWait
  else match who (s_raw o) (s_dns o) (fun k => latest k (e :: es)) with
       | None => v = VError
       | Some ids => exists f, v = VFound ids f /\ (forall k, ordinary k -> gtext (f_groups f) k = latest k (e :: es)) /\
                       (es <> [] \/ presentb e "mlfforget" = false -> f_users f = users (e :: es)) /\
                       f_matches f = collected (e :: es)
       end.
Lemma who_ext raw dns g h : (forall k, ordinary k -> g k = h k) -> who raw dns g = who raw dns h.
Proof.
  intros E. assert (H : g "ip4" = h "ip4" /\ g "ip6" = h "ip6" /\ g "dns" = h "dns" /\ g "fid" = h "fid" /\ g "cidr" = h "cidr").
  { repeat split; apply E; unfold ordinary; cbn; intuition discriminate. }
  destruct H as (H1 & H2 & H3 & H4 & H5). unfold who, mask_of, with_id. now rewrite H1, H2, H3, H4, H5.
Qed.
Lemma no_idb_eq es f : (forall k, ~ special k -> gtext (f_groups f) k = latest k es) ->
  no_idb es = match gtext (f_groups f) "fid", gtext (f_groups f) "ip4", gtext (f_groups f) "ip6", gtext (f_groups f) "dns" with None, None, None, None => true | _, _, _, _ => false end.
Proof. intros E. unfold no_idb. rewrite !E; try reflexivity; unfold special; intuition discriminate. Qed.

Lemma see_core c o id known es : session_of o = Some id -> snd (ca_get c (s_now o) (key id)) = known -> prior known es -> dwf (e_groups (s_event o)) ->
  exists f, fst (see c o) = poke (moved c (s_now o) id (e_groups (s_event o))) (key id) f /\ right_verdict o es (snd (see c o)) /\
    (presentb (s_event o) "mlfforget" = false -> good (s_event o :: es) f).
Proof.
  unfold session_of. rewrite field_gtext. intros Hid Hk P W. set (e := s_event o) in *. unfold see, take_match. fold e. rewrite Hid.
  set (F := core known (e_groups e) (e_lines e)).
  assert (Q : truthy (f_groups F) "nofail" = quiet e es) by (apply core_nofail; auto).
  assert (Fd : forall k, ~ special k -> gtext (f_groups F) k = latest k (e :: es)). { intros k N. unfold F. rewrite (core_groups known e es P). apply g2_fields; auto. }
  assert (Wf : dwf (f_groups F)) by (unfold F; rewrite (core_groups known e es P); apply g2_wf with (es := es); auto).
  pose proof (core_quiet known e es P W) as Q2. fold F in Q2. pose proof (core_pending known e es P) as Pe. fold F in Pe.
  pose proof (core_users known e es P W) as U. fold F in U.  pose proof (core_collected known e es P W) as Cl. fold F in Cl.
  assert (Good : forall f', same_but_ip F f' -> waiting (e :: es) = false -> presentb e "mlfforget" = false -> good (e :: es) f').
  { intros f' (i & ->) Wt Fo. constructor; cbn [with_ip f_groups f_users f_nofail f_matches f_pending]; auto.
    - apply U. right. now rewrite <- present_truthy.
    - now rewrite Pe, Wt.
    - destruct Cl as [C1 C2]. destruct (quiet e es); [apply C1; [reflexivity|now rewrite <- present_truthy]|now apply C2]. }
  pose proof (merge_core c (s_now o) id (e_groups e) (e_lines e)) as MC. destruct (merge_failure c (s_now o) id (e_groups e) (e_lines e)) as [c' f0].
  assert (f0 = F) as -> by (destruct (MC F) as [-> _]; rewrite Hk; reflexivity). rewrite Q. destruct (quiet e es) eqn:Qe.
  - exists F. cbn [fst snd]. split; [apply MC|]. split; [unfold right_verdict; fold e; now rewrite Qe|].
    intros Fo. apply Good; [apply same_ip_refl| |exact Fo]. cbn [waiting]. now rewrite Qe.
  - pose proof (identify_spec (s_raw o) (s_dns o) true F) as I. cbn zeta in I. pose proof (no_idb_eq _ _ Fd) as Ni.
    destruct (identify (s_raw o) (s_dns o) true F) as [v f1] eqn:Id. cbn [fst snd] in *. exists f1. split; [apply MC|].
    unfold right_verdict. fold e. rewrite Qe. rewrite Ni.
    assert (Done : (same_but_ip F f1 /\ v = match who (s_raw o) (s_dns o) (gtext (f_groups F)) with None => VError | Some ids => VFound ids f1 end) -> no_idb (e :: es) = false ->
      match who (s_raw o) (s_dns o) (fun k => latest k (e :: es)) with
       | None => v = VError
       | Some ids => exists f, v = VFound ids f /\ (forall k, ordinary k -> gtext (f_groups f) k = latest k (e :: es)) /\
                       (es <> [] \/ presentb e "mlfforget" = false -> f_users f = users (e :: es)) /\
                       f_matches f = collected (e :: es)
       end /\ (presentb e "mlfforget" = false -> good (e :: es) f1)).
    { intros [Sm ->] Nf. split.
      - rewrite <- (who_ext _ _ (gtext (f_groups F))) by (intros k O; apply Fd; now apply ordinary_special). destruct (who _ _ _) as [ids|]; [|reflexivity].
        exists f1. destruct Sm as (i & ->). cbn [with_ip f_groups f_users f_matches]. split; [reflexivity|]. split; [intros k O; apply Fd; now apply ordinary_special|].
        split; [|now apply Cl].
        intros [H|H]; apply U; [left|right; now rewrite <- present_truthy]. intros ->. unfold prior in P. congruence.
      - intros Fo. apply Good; auto. cbn [waiting]. now rewrite Nf, andb_false_r. }
    destruct (gtext (f_groups F) "fid") as [x|]; [apply Done; auto|]. destruct (gtext (f_groups F) "ip4") as [x|]; [apply Done; auto|].
    destruct (gtext (f_groups F) "ip6") as [x|]; [apply Done; auto|]. destruct (gtext (f_groups F) "dns") as [x|]; [apply Done; auto|].
    injection I as -> ->. split; [reflexivity|]. intros Fo. constructor; cbn [with_pending f_groups f_users f_nofail f_matches f_pending]; auto.
    + apply U. right. now rewrite <- present_truthy.
    + now rewrite Q2, Qe.
    + cbn [waiting]. now rewrite Qe, Ni.
    + rewrite Qe. now apply Cl.
Qed.

(** ** the cache *)
Record inv (ids : list text) (os : list seen) (c : sessions) : Prop := {
  I_wf : dwf (ca_list c);
  I_max : ca_max c = 100%nat;
  I_ttl : ca_ttl c = 300;
  I_keys : forall k, In k (dkeys (ca_list c)) -> In k (map key ids);
  I_life : forall id, match life id os with
                      | None => dget (key id) (ca_list c) = None
                      | Some (t0, es) => es <> [] /\ exists f, dget (key id) (ca_list c) = Some (f, t0 + 300) /\ good es f
                      end
}.
Lemma life_snoc id os o : life id (os ++ [o]) = life1 id (life id os) o.
Proof. unfold life. now rewrite fold_left_app. Qed.
Lemma room (ids : list text) (l : dict string (fail * Z)) id : (length ids <= 100)%nat -> dwf l -> (forall k, In k (dkeys l) -> In k (map key ids)) -> In id ids -> dget (key id) l = None ->
  (length l < 100)%nat.
Proof.
  intros L W K I N. apply dget_None in N. assert (H : (length (key id :: dkeys l) <= length (map key ids))%nat).
  { apply NoDup_incl_length; [constructor; [exact N|exact W]|]. intros k [<-|J]; [now apply in_map|auto]. }
  rewrite map_length in H. cbn in H. unfold dkeys in H. rewrite map_length in H. lia.
Qed.
Lemma poke_get c k f k' : dget k' (ca_list (poke c k f)) = if eqb k' k then option_map (fun x => (f, snd x)) (dget k (ca_list c)) else dget k' (ca_list c).
Proof.
  unfold poke. destruct (dget k (ca_list c)) as [[v e]|] eqn:D; cbn [option_map snd ca_with_list ca_list].
  - rewrite dget_dset. destruct (eqb_spec k' k); reflexivity.
  - destruct (eqb_spec k' k) as [->|]; [exact D|reflexivity].
Qed.
Lemma poke_keep c k f : dwf (ca_list c) -> dwf (ca_list (poke c k f)) /\ dkeys (ca_list (poke c k f)) = dkeys (ca_list c) /\ ca_max (poke c k f) = ca_max c /\ ca_ttl (poke c k f) = ca_ttl c.
Proof.
  intros W. unfold poke. destruct (dget k (ca_list c)) as [[v e]|] eqn:D; cbn [ca_with_list ca_list ca_max ca_ttl]; [|auto].
  split; [now apply dwf_dset|]. split; [|auto]. apply dkeys_dset_mem. now apply dget_key in D.
Qed.

Lemma inv_step ids os c o : (length ids <= 100)%nat -> (forall i, session_of o = Some i -> In i ids) -> dwf (e_groups (s_event o)) -> inv ids os c ->
  inv ids (os ++ [o]) (fst (see c o)) /\ (forall i, session_of o = Some i -> right_verdict o (before i os (s_now o)) (snd (see c o))).
Proof.
  intros L Hi W I. destruct (session_of o) as [id|] eqn:S.
  2:{ split; [|discriminate]. rewrite see_none by exact S. destruct I as [I1 I2 I3 I4 I5]. constructor; auto. intros id. rewrite life_snoc. unfold life1. rewrite S. apply I5. }
  specialize (Hi id eq_refl). destruct I as [I1 I2 I3 I4 I5].
  set (known := snd (ca_get c (s_now o) (key id))). set (c1 := fst (ca_get c (s_now o) (key id))).
  assert (Kn : prior known (before id os (s_now o)) /\ (forall k, k <> key id -> dget k (ca_list c1) = dget k (ca_list c)) /\ dwf (ca_list c1) /\ ca_max c1 = 100%nat /\ ca_ttl c1 = 300 /\
     (forall k, In k (dkeys (ca_list c1)) -> In k (dkeys (ca_list c))) /\
     match known with
     | Some f => exists t0 es, life id os = Some (t0, es) /\ s_now o < t0 + 300 /\ dget (key id) (ca_list c1) = Some (f, t0 + 300)
     | None => dget (key id) (ca_list c1) = None /\ match life id os with Some (t0, _) => t0 + 300 <= s_now o | None => True end
     end).
  { unfold known, c1, ca_get, before. pose proof (I5 id) as Hl. destruct (life id os) as [[t0 es]|].
    - destruct Hl as (Ne & f & D & G). rewrite D. destruct (Z.gtb_spec (t0 + 300) (s_now o)) as [Gt|Le]; cbn [fst snd].
      + destruct (Z_lt_dec (s_now o) (t0 + 300)); [|lia]. split; [split; [exact G|exact Ne]|]. repeat (split; [solve [auto]|]). exists t0, es. repeat split; auto; lia.
      + destruct (Z_lt_dec (s_now o) (t0 + 300)); [lia|]. cbn [ca_with_list ca_list ca_max ca_ttl]. split; [reflexivity|].
        split; [intros; now apply dget_ddel_other|]. split; [now apply dwf_ddel|]. split; [exact I2|]. split; [exact I3|].
        split; [intros k; apply dkeys_ddel_incl|]. split; [now apply dget_ddel_same|lia].
    - rewrite Hl. cbn [fst snd]. split; [reflexivity|]. repeat (split; [solve [auto]|]). exact I. }
  destruct Kn as (Pr & Oth & W1 & M1 & T1 & K1 & Dk).
  destruct (see_core c o id known (before id os (s_now o)) S eq_refl Pr W) as (f & Ef & Rv & Gf).
  split; [|intros i [= <-]; exact Rv]. rewrite Ef. unfold moved. rewrite (surjective_pairing (ca_get c (s_now o) (key id))). fold c1. fold known. rewrite <- present_truthy.
  set (e := s_event o) in *.
  assert (Room : known = None -> (length (ca_list c1) < 100)%nat).
  { intros En. rewrite En in Dk. destruct Dk as [Dn _]. eapply room; eauto. }
  set (m := match known with Some _ => if presentb e "mlfforget" then ca_with_list (ddel (key id) (ca_list c1)) c1 else c1
            | None => if presentb e "mlfforget" then c1 else ca_set c1 (s_now o) (key id) (mkFail [] [] [] [] false None) end).
  assert (Mm : dwf (ca_list m) /\ ca_max m = 100%nat /\ ca_ttl m = 300 /\ (forall k, In k (dkeys (ca_list m)) -> In k (map key ids)) /\ (forall k, k <> key id -> dget k (ca_list m) = dget k (ca_list c)) /\
     match known with
     | Some g => exists t0 es, life id os = Some (t0, es) /\ s_now o < t0 + 300 /\ dget (key id) (ca_list m) = if presentb e "mlfforget" then None else Some (g, t0 + 300)
     | None => option_map snd (dget (key id) (ca_list m)) = if presentb e "mlfforget" then None else Some (s_now o + 300)
     end).
  { unfold m. destruct known as [g|]; destruct (presentb e "mlfforget"); cbn [ca_with_list ca_list ca_max ca_ttl].
    - split; [now apply dwf_ddel|]. split; [exact M1|]. split; [exact T1|]. split; [intros k J; apply dkeys_ddel_incl in J; auto|].
      split; [intros k N; rewrite dget_ddel_other by exact N; auto|]. destruct Dk as (t0 & es & D1 & D2 & D3). exists t0, es. repeat split; auto. now apply dget_ddel_same.
    - repeat (split; [solve [auto]|]). exact Dk.
    - repeat (split; [solve [auto]|]). destruct Dk as [-> _]. reflexivity.
    - unfold ca_set. specialize (Room eq_refl). rewrite M1. replace (Nat.leb 100 (length (ca_list c1))) with false by lia. cbn [ca_with_list ca_list ca_max ca_ttl].
      split; [now apply dwf_dset|]. split; [exact M1|]. split; [exact T1|]. split.
      { intros k J. rewrite dkeys_dset in J. destruct (dmem _ _) in J; [auto|]. apply in_app_or in J as [J|[<-|[]]]; [auto|now apply in_map]. }
      split; [intros k N; rewrite dget_dset_other by exact N; auto|]. rewrite dget_dset_same. cbn. now rewrite T1. }
  destruct Mm as (Wm & Xm & Tm & Km & Om & Dm). destruct (poke_keep m (key id) f Wm) as (P1 & P2 & P3 & P4).
  change (inv ids (os ++ [o]) (poke m (key id) f)).
  constructor; [exact P1|congruence|congruence|rewrite P2; exact Km|].
  intros i. rewrite life_snoc. unfold life1. rewrite S. rewrite poke_get. destruct (list_eq_dec Ascii.ascii_dec id i) as [<-|N].
  - rewrite eqb_refl. fold e. unfold before in *. destruct known as [g|].
    + destruct Dm as (t0 & es & El & Lt & Dm). rewrite El in *. destruct (Z_lt_dec (s_now o) (t0 + 300)); [|lia]. rewrite Dm. destruct (presentb e "mlfforget") eqn:Fo; cbn [option_map snd]; [reflexivity|].
      split; [discriminate|]. exists f. split; [reflexivity|]. now apply Gf.
    + destruct (presentb e "mlfforget") eqn:Fo.
      * destruct (dget (key id) (ca_list m)); [discriminate|reflexivity].
      * destruct (dget (key id) (ca_list m)) as [[g x]|]; [|discriminate]. cbn in Dm. injection Dm as ->. destruct Dk as [_ Dk].
        destruct (life id os) as [[t0 es]|]; [destruct (Z_lt_dec (s_now o) (t0 + 300)); [lia|]|]; (split; [discriminate|]); exists f; cbn [option_map snd]; (split; [reflexivity|]); now apply Gf.
  - destruct (eqb_spec (key i) (key id)) as [E|_]; [apply key_inj in E; congruence|]. rewrite Om by (intros E; apply key_inj in E; congruence). apply I5.
Qed.
Lemma inv_run ids os : (length ids <= 100)%nat -> (forall o i, In o os -> session_of o = Some i -> In i ids) -> proper_groups os -> inv ids os (see_all os).
Proof.
  intros L. unfold see_all. induction os as [|o os IH] using rev_ind; intros H W.
  - constructor; try reflexivity; [apply dwf_nil|intros k []].
  - rewrite fold_left_app. cbn [fold_left]. apply inv_step; auto.
    + intros i. apply H. apply in_or_app. right. now left.
    + apply W. apply in_or_app. right. now left.
    + apply IH; [intros o' i J; apply H; apply in_or_app; now left|intros o' J; apply W; apply in_or_app; now left].
Qed.

(** ** size *)
Lemma see_size c o : ca_max c = 100%nat -> (length (ca_list c) <= 100)%nat -> ca_max (fst (see c o)) = 100%nat /\ (length (ca_list (fst (see c o))) <= 100)%nat.
Proof.
  intros M L. unfold see, take_match. destruct (gtext (e_groups (s_event o)) "mlfid") as [id|]; [|auto].
  pose proof (merge_core c (s_now o) id (e_groups (s_event o)) (e_lines (s_event o))) as MC. destruct (merge_failure c (s_now o) id (e_groups (s_event o)) (e_lines (s_event o))) as [c' f].
  assert (B : ca_max (moved c (s_now o) id (e_groups (s_event o))) = 100%nat /\ (length (ca_list (moved c (s_now o) id (e_groups (s_event o)))) <= 100)%nat).
  { unfold moved, ca_get. destruct (dget (key id) (ca_list c)) as [[v x]|].
    - destruct (x >? s_now o); cbn [ca_with_list]; destruct (truthy _ _); cbn [ca_with_list ca_list ca_max]; rewrite ?M; split; auto;
        try (pose proof (ddel_length (key id) (ca_list c)); lia).
      pose proof (ddel_length (key id) (ca_list c)). pose proof (set_size (mkCache (ddel (key id) (ca_list c)) 100 (ca_ttl c)) (s_now o) (key id) (mkFail [] [] [] [] false None)) as Z. cbn [ca_max] in Z.
      unfold ca_with_list in *. rewrite ?M in *. apply Z. lia.
    - destruct (truthy _ _); [auto|]. pose proof (set_size c (s_now o) (key id) (mkFail [] [] [] [] false None)) as Z. rewrite M in Z. split; [exact M|apply Z; lia]. }
  assert (Pk : forall c g, ca_max c = 100%nat /\ (length (ca_list c) <= 100)%nat -> ca_max (poke c (key id) g) = 100%nat /\ (length (ca_list (poke c (key id) g)) <= 100)%nat).
  { intros c0 g [B1 B2]. unfold poke. destruct (dget (key id) (ca_list c0)) as [[v x]|] eqn:D; cbn [ca_with_list ca_max ca_list]; [|auto]. split; [exact B1|].
    rewrite dset_length. replace (dmem (key id) (ca_list c0)) with true; [exact B2|]. symmetry. apply dmem_In. now apply dget_key in D. }
  destruct (truthy (f_groups f) "nofail"); [cbn [fst]; destruct (MC f) as [_ ->]; auto|].
  destruct (identify _ _ _ _) as [v f1]. cbn [fst]. destruct (MC f1) as [_ ->]. auto.
Qed.
