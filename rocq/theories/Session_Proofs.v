(** Proofs about sessions. *)
From Verif Require Import Base Text IPAddr_Model Utils_Model Utils_Proofs Lines_Model Session_Model Session_Spec.
From Coq Require Import ZifyBool ZifyNat.
Local Open Scope string_scope.
Local Open Scope list_scope.

(** ** groups *)
Lemma field_gtext e k : field e k = gtext (e_groups e) k.
Proof. unfold field, gtext. destruct (dget k (e_groups e)) as [[t|]|]; reflexivity. Qed.
Lemma present_truthy e k : presentb e k = truthy (e_groups e) k.
Proof. unfold presentb, truthy. now rewrite field_gtext. Qed.
Lemma gtext_dset g k k' v : gtext (dset k' v g) k = if eqb k k' then v else gtext g k.
Proof. unfold gtext. rewrite dget_dset. now destruct (eqb k k'). Qed.
Lemma gtext_ddel (g : groups) k k' : dwf g -> gtext (ddel k' g) k = if eqb k k' then None else gtext g k.
Proof. intros W. unfold gtext. rewrite dget_ddel by exact W. now destruct (eqb k k'). Qed.
Lemma dwf_update_some h : forall g, dwf g -> dwf (update_some g h).
Proof.
  unfold update_some. induction h as [|[k [t|]] h IH]; intros g W; cbn; [exact W| |]; apply IH; [now apply dwf_dset|exact W].
Qed.
Lemma dwf_update_all h : forall g, dwf g -> dwf (update_all g h).
Proof. unfold update_all. induction h as [|[k v] h IH]; intros g W; cbn; [exact W|]. now apply IH, dwf_dset. Qed.
Lemma gtext_update_some h k : forall g, dwf h -> gtext (update_some g h) k = match gtext h k with Some t => Some t | None => gtext g k end.
Proof.
  unfold update_some. induction h as [|[k' v] h IH]; intros g W; [reflexivity|]. inversion W as [|? ? N W']; subst. cbn [fold_left fst snd].
  rewrite IH by exact W'. change (gtext ((k', v) :: h) k) with (match (if eqb k k' then Some v else dget k h) with Some v => v | None => None end).
  destruct (eqb_spec k k') as [->|E].
  - assert (H : gtext h k' = None). { unfold gtext. destruct (dget k' h) eqn:D; [|reflexivity]. apply dget_key in D. contradiction. }
    rewrite H. destruct v as [t|]; [|reflexivity]. rewrite gtext_dset, eqb_refl. reflexivity.
  - fold (gtext h k). destruct (gtext h k); [reflexivity|]. destruct v as [t|]; [|reflexivity]. rewrite gtext_dset. destruct (eqb_spec k k'); [congruence|reflexivity].
Qed.
Lemma update_all_gtext h k : forall g, dwf h -> gtext (update_all g h) k = match dget k h with Some v => v | None => gtext g k end.
Proof.
  unfold update_all. induction h as [|[k' v] h IH]; intros g W; [reflexivity|]. inversion W as [|? ? N W']; subst. cbn [fold_left fst snd]. rewrite IH by exact W'. cbn [dget].
  destruct (eqb_spec k k') as [->|E].
  - destruct (dget k' h) eqn:D; [apply dget_key in D; contradiction|]. now rewrite gtext_dset, eqb_refl.
  - destruct (dget k h); [reflexivity|]. rewrite gtext_dset. destruct (eqb_spec k k'); [congruence|reflexivity].
Qed.
Lemma add_user_spec us u : add_user us u = match u with Some (c :: t) => if in_dec (list_eq_dec Ascii.ascii_dec) (c :: t) us then us else us ++ [c :: t] | _ => us end.
Proof.
  unfold add_user. destruct u as [[|c t]|]; try reflexivity. destruct (in_dec _ _ _) as [I|N].
  - replace (existsb (eqb (c :: t)) us) with true; [reflexivity|]. symmetry. apply existsb_exists. exists (c :: t). split; [exact I|apply eqb_refl].
  - destruct (existsb (eqb (c :: t)) us) eqn:E; [|reflexivity]. exfalso. apply N. apply existsb_exists in E as (x & I & E). destruct (eqb_spec (c :: t) x) as [->|]; [exact I|discriminate].
Qed.
Lemma users_cons e es : users (e :: es) = add_user (users es) (gtext (e_groups e) "user").
Proof. rewrite add_user_spec, <- field_gtext. reflexivity. Qed.
Lemma key_inj a b : key a = key b -> a = b.
Proof. unfold key. intros H. rewrite <- (list_ascii_of_string_of_list_ascii a), <- (list_ascii_of_string_of_list_ascii b). now rewrite H. Qed.

(** ** merging without the cache *)
Definition core (known : option fail) (cur : groups) (matched : list line) : fail :=
  let gained := truthy cur "mlfgained" in
  let nofail := gained || truthy cur "nofail" in
  let forget := truthy cur "mlfforget" in
  let cur := if gained && negb (truthy cur "nofail") then dset "nofail" (gtext cur "mlfgained") cur else cur in
  let cur := ddel "mlfforget" cur in
  let '(f, us) :=
    match known with
    | Some s =>
        let us := add_user (f_users s) (gtext cur "user") in
        let had := truthy (f_groups s) "nofail" || truthy (f_groups s) "mlfgained" in
        let pending := if gained then false else f_pending s in
        (mkFail (update_some (ddel "mlfgained" (ddel "nofail" (f_groups s))) cur) us (if negb had && negb pending then [] else f_matches s) (f_nofail s) pending (f_ip s), us)
    | None =>
        let us := if forget then [] else add_user [] (gtext cur "user") in (mkFail cur us [] [] false None, us)
    end in
  let reset := f_pending f || Nat.ltb 1 (length us) in
  let f := with_pending false f in
  let f := if reset then with_groups (ddel "mlfgained" (ddel "nofail" (f_groups f))) f else f in
  let nofail := nofail && negb reset in
  if negb nofail then with_lines (f_nofail f ++ f_matches f ++ matched) [] f
  else if negb forget then with_lines (f_matches f) (f_nofail f ++ matched) f
  else f.
Definition moved (c : sessions) (now : Z) (id : text) (cur : groups) : sessions :=
  let '(c, known) := ca_get c now (key id) in
  match known with
  | Some _ => if truthy cur "mlfforget" then ca_with_list (ddel (key id) (ca_list c)) c else c
  | None => if truthy cur "mlfforget" then c else ca_set c now (key id) (mkFail [] [] [] [] false None)
  end.
Lemma poke_set c now k f g : poke (ca_set c now k f) k g = ca_set c now k g.
Proof.
  unfold poke, ca_set. cbn [ca_list ca_with_list ca_max ca_ttl]. rewrite dget_dset_same. unfold ca_with_list. cbn. f_equal.
  generalize (if Nat.leb (ca_max c) (length (ca_list c)) then evict now (ca_max c) (ca_list c) else ca_list c). intros l. clear.
  induction l as [|[k' v] l IH]; cbn; [now rewrite eqb_refl|]. destruct (eqb k k') eqn:E; cbn; rewrite E; [reflexivity|]. now rewrite IH.
Qed.
Lemma merge_core c now id cur m g : let '(c', f) := merge_failure c now id cur m in
  f = core (snd (ca_get c now (key id))) cur m /\ poke c' (key id) g = poke (moved c now id cur) (key id) g.
Proof.
  unfold merge_failure, core, moved. destruct (ca_get c now (key id)) as [c1 [s|]]; cbn [snd].
  - split; reflexivity.
  - destruct (truthy cur "mlfforget"); (split; [reflexivity|]); [reflexivity|]. now rewrite !poke_set.
Qed.

(** ** the data of a session *)
Definition special (k : string) : Prop := k = "nofail" \/ k = "mlfgained" \/ k = "mlfforget".
Record good (es : list event) (f : fail) : Prop := {
  G_wf : dwf (f_groups f);
  G_users : f_users f = users es;
  G_fields : forall k, ~ special k -> gtext (f_groups f) k = latest k es;
  G_quiet : truthy (f_groups f) "nofail" || truthy (f_groups f) "mlfgained" = match es with [] => false | e :: r => quiet e r end;
  G_waiting : f_pending f = waiting es;
  G_lines : match es with
            | [] => True
            | e :: r => if quiet e r then f_nofail f = collected es /\ f_matches f = [] else f_nofail f = [] /\ f_matches f = collected es
            end
}.

Definition prior (known : option fail) (es : list event) : Prop :=
  match known with Some s => good es s /\ es <> [] | None => es = [] end.
Ltac solve_core :=
  match goal with |- context [match ?k with Some _ => _ | None => _ end] => is_var k; destruct k as [s|] end; cbn [f_groups f_pending f_matches f_nofail f_users];
  match goal with |- context [orb ?a (Nat.ltb ?b ?c)] => destruct (orb a (Nat.ltb b c)) end;
  cbn [with_groups with_pending f_groups f_nofail f_matches negb];
  match goal with |- context [orb ?a (truthy ?c "nofail")] => destruct (orb a (truthy c "nofail")) end; cbn [andb negb];
  try match goal with |- context [negb (truthy ?c "mlfforget")] => destruct (truthy c "mlfforget") end; repeat split; reflexivity.
Section Core.
Variables (known : option fail) (e : event) (es : list event).
Hypothesis P : prior known es.
Hypothesis W : dwf (e_groups e).
Let cur := e_groups e.
Let f := core known cur (e_lines e).
Let cur1 := if truthy cur "mlfgained" && negb (truthy cur "nofail") then dset "nofail" (gtext cur "mlfgained") cur else cur.
Let cur2 := ddel "mlfforget" cur1.

Lemma cur1_wf : dwf cur1.
Proof. unfold cur1. destruct (_ && _); [now apply dwf_dset|exact W]. Qed.
Lemma cur2_wf : dwf cur2. Proof. apply dwf_ddel, cur1_wf. Qed.
Lemma cur2_get k : ~ special k -> gtext cur2 k = gtext cur k.
Proof.
  intros N. unfold cur2. rewrite gtext_ddel by apply cur1_wf. destruct (eqb_spec k "mlfforget"); [destruct N; red; tauto|].
  unfold cur1. destruct (_ && _); [|reflexivity]. rewrite gtext_dset. destruct (eqb_spec k "nofail"); [destruct N; red; tauto|reflexivity].
Qed.
Lemma cur2_nofail : truthy cur2 "nofail" = truthy cur "mlfgained" || truthy cur "nofail".
Proof.
  unfold truthy at 1, cur2. rewrite gtext_ddel by apply cur1_wf. cbn [eqb EqB_string]. replace (("nofail" =? "mlfforget")%string) with false by reflexivity.
  unfold cur1. destruct (truthy cur "mlfgained") eqn:G; destruct (truthy cur "nofail") eqn:F; cbn [andb orb negb]; rewrite ?gtext_dset, ?eqb_refl; unfold truthy in *; auto.
Qed.
Lemma cur2_gained : truthy cur2 "mlfgained" = truthy cur "mlfgained".
Proof.
  unfold truthy, cur2. rewrite gtext_ddel by apply cur1_wf. replace (eqb "mlfgained" "mlfforget") with false by reflexivity. unfold cur1.
  destruct (_ && _); [|reflexivity]. rewrite gtext_dset. replace (eqb "mlfgained" "nofail") with false by reflexivity. reflexivity.
Qed.

(** what the code calls reset, and the number of users *)
Let was_waiting := match known with Some s => if truthy cur "mlfgained" then false else f_pending s | None => false end.
Let us := match known with Some s => add_user (f_users s) (gtext cur2 "user") | None => if truthy cur "mlfforget" then [] else add_user [] (gtext cur2 "user") end.
Let reset := was_waiting || Nat.ltb 1 (length us).
Let flag := (truthy cur "mlfgained" || truthy cur "nofail") && negb reset.
Lemma us_len : Nat.ltb 1 (length us) = negb (Nat.leb (length (users (e :: es))) 1).
Proof.
  unfold us. rewrite cur2_get by (unfold special; intuition discriminate). unfold prior in P. destruct known as [s|].
  - destruct P as [G _]. rewrite (G_users _ _ G), users_cons. fold cur. lia.
  - subst es. rewrite users_cons. fold cur. cbn [users]. destruct (truthy cur "mlfforget"); [|lia]. rewrite add_user_spec. destruct (gtext cur "user") as [[|? ?]|]; cbn; try reflexivity.
Qed.
Lemma quiet_eq : quiet e es = flag.
Proof.
  unfold flag, reset. rewrite us_len. unfold was_waiting.
  assert (Q : quiet e es = (presentb e "nofail" || presentb e "mlfgained") && (presentb e "mlfgained" || negb (waiting es)) && Nat.leb (length (users (e :: es))) 1) by (destruct es; reflexivity).
  rewrite Q, !present_truthy. fold cur. unfold prior in P. destruct known as [s|].
  - destruct P as [G _]. rewrite (G_waiting _ _ G). destruct (truthy cur "mlfgained"), (truthy cur "nofail"), (waiting es), (Nat.leb _ _); reflexivity.
  - subst es. cbn [waiting]. destruct (truthy cur "mlfgained"), (truthy cur "nofail"), (Nat.leb _ _); reflexivity.
Qed.
Let g1 := match known with Some s => update_some (ddel "mlfgained" (ddel "nofail" (f_groups s))) cur2 | None => cur2 end.
Let g2 := if reset then ddel "mlfgained" (ddel "nofail" g1) else g1.
Lemma core_groups : f_groups f = g2.
Proof.
  unfold f, core, g2, reset, was_waiting, us, g1. fold cur1. fold cur2. solve_core.
Qed.
Lemma g1_wf : dwf g1.
Proof. unfold g1. destruct known as [s|]; [|apply cur2_wf]. destruct P as [G _]. apply dwf_update_some, dwf_ddel, dwf_ddel, (G_wf _ _ G). Qed.
Lemma g2_wf : dwf g2.
Proof. unfold g2. destruct reset; [|apply g1_wf]. apply dwf_ddel, dwf_ddel, g1_wf. Qed.
Lemma g1_fields k : ~ special k -> gtext g1 k = latest k (e :: es).
Proof.
  intros N. cbn [latest]. rewrite field_gtext. fold cur. unfold g1. unfold prior in P. destruct known as [s|].
  - destruct P as [G _]. rewrite gtext_update_some by apply cur2_wf. rewrite cur2_get by exact N. destruct (gtext cur k); [reflexivity|].
    rewrite !gtext_ddel by (try apply dwf_ddel; apply (G_wf _ _ G)). destruct (eqb_spec k "mlfgained"); [destruct N; red; tauto|]. destruct (eqb_spec k "nofail"); [destruct N; red; tauto|].
    now apply G_fields.
  - subst es. rewrite cur2_get by exact N. cbn. destruct (gtext cur k); reflexivity.
Qed.
Lemma g2_fields k : ~ special k -> gtext g2 k = latest k (e :: es).
Proof.
  intros N. rewrite <- g1_fields by exact N. unfold g2. destruct reset; [|reflexivity].
  rewrite !gtext_ddel by (try apply dwf_ddel; apply g1_wf). destruct (eqb_spec k "mlfgained"); [destruct N; red; tauto|]. destruct (eqb_spec k "nofail"); [destruct N; red; tauto|reflexivity].
Qed.
Lemma truthy_some (g h : groups) k : dwf h -> dwf g -> gtext g k = None -> truthy (update_some g h) k = truthy h k.
Proof. intros H G N. unfold truthy. rewrite gtext_update_some, N by exact H. now destruct (gtext h k) as [[|? ?]|]. Qed.
Lemma g1_nofail : truthy g1 "nofail" = truthy cur "mlfgained" || truthy cur "nofail".
Proof.
  rewrite <- cur2_nofail. unfold g1. destruct known as [s|]; [|reflexivity]. destruct P as [G _]. apply truthy_some; [apply cur2_wf|apply dwf_ddel, dwf_ddel, (G_wf _ _ G)|].
  rewrite !gtext_ddel by (try apply dwf_ddel; apply (G_wf _ _ G)). reflexivity.
Qed.
Lemma g1_gained : truthy g1 "mlfgained" = truthy cur "mlfgained".
Proof.
  rewrite <- cur2_gained. unfold g1. destruct known as [s|]; [|reflexivity]. destruct P as [G _]. apply truthy_some; [apply cur2_wf|apply dwf_ddel, dwf_ddel, (G_wf _ _ G)|].
  rewrite !gtext_ddel by (try apply dwf_ddel; apply (G_wf _ _ G)). reflexivity.
Qed.
Lemma cleared (g : groups) k : dwf g -> k = "nofail" \/ k = "mlfgained" -> truthy (ddel "mlfgained" (ddel "nofail" g)) k = false.
Proof. intros Wg H. unfold truthy. rewrite !gtext_ddel by (try apply dwf_ddel; exact Wg). destruct H as [-> | ->]; reflexivity. Qed.
Lemma core_nofail : truthy (f_groups f) "nofail" = quiet e es.
Proof.
  rewrite core_groups, quiet_eq. unfold flag, g2. destruct reset; [|rewrite g1_nofail; cbn [negb]; now rewrite andb_true_r].
  rewrite cleared by (auto using g1_wf). now rewrite andb_false_r.
Qed.
Lemma core_quiet : truthy (f_groups f) "nofail" || truthy (f_groups f) "mlfgained" = quiet e es.
Proof.
  rewrite core_nofail, quiet_eq, core_groups. unfold flag, g2. destruct reset.
  - rewrite cleared by (auto using g1_wf). now rewrite andb_false_r.
  - rewrite g1_gained. destruct (truthy cur "mlfgained"), (truthy cur "nofail"); reflexivity.
Qed.
Lemma core_pending : f_pending f = false.
Proof.
  unfold f, core. solve_core.
Qed.
Lemma core_users : known <> None \/ truthy cur "mlfforget" = false -> f_users f = users (e :: es).
Proof.
  intros H. assert (E : f_users f = us).
  { unfold f, core, us. fold cur1. fold cur2. solve_core. }
  rewrite E. unfold us. rewrite cur2_get by (unfold special; intuition discriminate). rewrite users_cons. fold cur. unfold prior in P. destruct known as [s|].
  - destruct P as [G _]. now rewrite (G_users _ _ G).
  - subst es. destruct H as [H|H]; [congruence|]. now rewrite H.
Qed.
(** the lines *)
Let old_m := match known with Some s => if negb (truthy (f_groups s) "nofail" || truthy (f_groups s) "mlfgained") && negb was_waiting then [] else f_matches s | None => [] end.
Let old_n := match known with Some s => f_nofail s | None => [] end.
Lemma core_lines : f_matches f = (if flag then old_m else old_n ++ old_m ++ e_lines e) /\
  f_nofail f = (if flag then if truthy cur "mlfforget" then old_n else old_n ++ e_lines e else []).
Proof.
  unfold f, core, old_m, old_n, flag, reset, was_waiting, us. fold cur1. fold cur2. solve_core.
Qed.
Lemma core_collected : (quiet e es = true -> truthy cur "mlfforget" = false -> f_nofail f = collected (e :: es) /\ f_matches f = []) /\
  (quiet e es = false -> f_nofail f = [] /\ f_matches f = collected (e :: es)).
Proof.
  destruct core_lines as [-> ->]. rewrite quiet_eq.
  assert (O : (flag = true -> old_n ++ old_m = old_n /\ old_m = []) /\ old_n ++ old_m = if just_reported es || (waiting es && presentb e "mlfgained") then [] else collected es).
  { pose proof quiet_eq as Q. assert (Qs : quiet e es = (presentb e "nofail" || presentb e "mlfgained") && (presentb e "mlfgained" || negb (waiting es)) && Nat.leb (length (users (e :: es))) 1) by (destruct es; reflexivity).
    rewrite <- Q, Qs. rewrite !present_truthy in *. clear Q Qs. unfold old_n, old_m, was_waiting. fold cur. clearbody cur. unfold prior in P. destruct known as [s|]; [|subst es; split; [auto|reflexivity]].
    destruct P as [G Ne]. rewrite (G_quiet _ _ G), (G_waiting _ _ G). pose proof (G_lines _ _ G) as Ln. destruct es as [|e' r]; [congruence|].
    unfold just_reported, waiting. destruct (quiet e' r).
    - destruct Ln as [-> ->]. cbn [negb andb orb]. rewrite app_nil_r. auto.
    - destruct Ln as [-> ->]. cbn [negb andb orb app]. destruct (no_idb (e' :: r)); cbn [negb andb orb].
      + destruct (truthy cur "mlfgained"); cbn [negb andb orb]; [auto|]. rewrite andb_false_r, andb_false_l. split; [discriminate|reflexivity].
      + destruct (truthy cur "mlfgained"); cbn [negb andb orb]; auto. }
  destruct O as [O1 O2]. cbn [collected]. rewrite <- O2. split; intros ->.
  - intros ->. destruct (O1 eq_refl) as [-> ->]. auto.
  - now rewrite app_assoc.
Qed.
End Core.
