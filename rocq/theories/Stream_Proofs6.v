(** Proofs about reading the options of a jail, its filter and its actions. *)
From Verif Require Import Base Text Backtrack Options_Model Options_Spec Options_Proofs Options_Proofs2 Options_Props Stream_Model Stream_Spec Stream_Proofs Stream_Proofs2 Stream_Proofs3 Stream_Proofs4 Stream_Proofs5.
Require Import ZifyBool ZifyNat.
Local Open Scope string_scope.
Local Open Scope list_scope.

Lemma lower_small c : lower c = small c.
Proof. destruct c as [[] [] [] [] [] [] [] []]; reflexivity. Qed.
Lemma as_bool_yes v : as_bool (VText v) = says_yes v.
Proof. unfold as_bool, says_yes. rewrite (map_ext _ _ lower_small). cbn [inb existsb]. rewrite orb_false_r, !orb_assoc. reflexivity. Qed.

Section WithEnv.
Context (E : env).
(** ** getOptions *)
Lemma get_step (get : text -> gres) l p sh cv t n d values : dmem n p = false ->
  get_options E get ((t, n, d) :: l) p sh cv values =
    match get n with
    | GOther => None
    | GNoSection => if sh then None else get_options E get l p sh cv (dset n d values)
    | _ => get_options E get l p sh cv (match option_value E cv (get n) t d with Some v => dset n v values | None => values end)
    end.
Proof.
  intros Hp. cbn [get_options]. rewrite Hp. unfold option_value. destruct (get n) as [v| | | |]; try reflexivity.
  - destruct cv; [|reflexivity]. destruct t; cbn [conv]; rewrite ?as_bool_yes; try reflexivity. now destruct (e_int E v).
  - destruct d; reflexivity.
Qed.
Lemma get_options_spec (get : text -> gres) p sh cv : forall l values o, get_options E get l p sh cv values = Some o -> NoDup (names l) -> dwf values ->
  dwf o /\ incl (dkeys o) (dkeys values ++ names l)
  /\ (forall n, ~ In n (names l) \/ dmem n p = true -> dget n o = dget n values)
  /\ (forall t n d, In (t, n, d) l -> dmem n p = false -> dget n o = orelse (option_value E cv (get n) t d) (dget n values)).
Proof.
  induction l as [|[[t n] d] l IH]; intros values o H ND W.
  - cbn in H. injection H as <-. split; [exact W|]. split; [apply incl_appl, incl_refl|]. split; [reflexivity|intros ? ? ? []].
  - cbn [names map fst snd] in ND. apply NoDup_cons_iff in ND as [Nn ND].
    destruct (dmem n p) eqn:Hp.
    + cbn [get_options] in H. rewrite Hp in H. destruct (IH _ _ H ND W) as (W' & I & A & B). split; [exact W'|]. split; [intros x Hx; apply I in Hx; apply in_app_iff in Hx as [?|?]; apply in_app_iff; [now left|right; now right]|]. split.
      * intros m [Hm|Hm]; apply A; [left; intros ?; apply Hm; now right|now right].
      * intros t' n' d' [[= <- <- <-]|Hi] Hp'; [congruence|]. now apply (B t').
    + rewrite get_step in H by exact Hp.
      assert (Q : get_options E get l p sh cv (match option_value E cv (get n) t d with Some v => dset n v values | None => values end) = Some o).
      { destruct (get n); try exact H; [destruct sh; [discriminate|exact H]|discriminate]. }
      assert (W2 : dwf (match option_value E cv (get n) t d with Some v => dset n v values | None => values end)) by (destruct (option_value _ _ _ _ _); [now apply dwf_dset|exact W]).
      destruct (IH _ _ Q ND W2) as (W' & I & A & B). split; [exact W'|]. split.
      { intros x Hx. apply I in Hx. apply in_app_iff in Hx as [Hx|Hx]; apply in_app_iff; [|right; now right].
        destruct (option_value E cv (get n) t d) as [v|]; [|now left]. rewrite dkeys_dset in Hx. destruct (dmem n values); [now left|].
        apply in_app_iff in Hx as [Hx|[<-|[]]]; [now left|right; now left]. }
      split.
      * intros m Hm. rewrite A by (destruct Hm as [Hm|Hm]; [left; intros ?; apply Hm; now right|now right]).
        destruct (option_value E cv (get n) t d) as [v|]; [|reflexivity]. apply dget_dset_other. intros ->. destruct Hm as [Hm|Hm]; [apply Hm; now left|congruence].
      * intros t' n' d' [[= <- <- <-]|Hi] Hp'.
        -- rewrite A by (now left). destruct (option_value E cv (get n) t d) as [v|]; [apply dget_dset_same|reflexivity].
        -- rewrite (B t' n' d' Hi Hp'). destruct (option_value E cv (get n') t' d') as [v|] eqn:O; [reflexivity|]. cbn [orelse].
           destruct (option_value E cv (get n) t d) as [v|]; [|reflexivity]. apply dget_dset_other. intros ->. apply Nn. apply in_map_iff. exists (t', n, d'). auto.
Qed.
Lemma get_options_error (get : text -> gres) p sh cv : forall l values, get_options E get l p sh cv values = None <->
  exists n, In n (names l) /\ dmem n p = false /\ (get n = GOther \/ get n = GNoSection /\ sh = true).
Proof.
  induction l as [|[[t n] d] l IH]; intros values; [split; [discriminate|intros (n & [] & _)]|].
  cbn [names map fst snd]. fold (names l).
  assert (Re : (exists m, In m (n :: names l) /\ dmem m p = false /\ (get m = GOther \/ get m = GNoSection /\ sh = true)) <->
     (dmem n p = false /\ (get n = GOther \/ get n = GNoSection /\ sh = true)) \/ exists m, In m (names l) /\ dmem m p = false /\ (get m = GOther \/ get m = GNoSection /\ sh = true)).
  { split; [intros (m & [<-|I] & R); [now left|right; eauto]|intros [R|(m & I & R)]; [exists n; split; [now left|exact R]|exists m; split; [now right|exact R]]]. }
  rewrite Re. destruct (dmem n p) eqn:Hp.
  - cbn [get_options]. rewrite Hp, IH. split; [now right|intros [[[=] _]|R]; exact R].
  - rewrite get_step by exact Hp. destruct (get n) eqn:G.
    + rewrite IH. split; [now right|intros [[_ [[=]|[[=] _]]]|R]; exact R].
    + destruct sh; [split; [intros _; left; auto|reflexivity]|]. rewrite IH. split; [now right|intros [[_ [[=]|[_ [=]]]]|R]; exact R].
    + rewrite IH. split; [now right|intros [[_ [[=]|[[=] _]]]|R]; exact R].
    + rewrite IH. split; [now right|intros [[_ [[=]|[[=] _]]]|R]; exact R].
    + split; [intros _; left; auto|reflexivity].
Qed.

(** ** merge *)
Lemma merge_get y : forall x k, dwf y -> dget k (merge x y) = orelse (dget k y) (dget k x).
Proof.
  unfold merge. induction y as [|[k v] y IH]; intros x m W; [reflexivity|]. cbn [fold_left fst snd]. inversion W as [|? ? N W']. subst. rewrite IH by exact W'. cbn [dget].
  destruct (eqb_spec m k) as [->|Nk].
  - replace (dget k y) with (@None val) by (symmetry; now apply dget_None). cbn [orelse]. apply dget_dset_same.
  - destruct (dget m y); [reflexivity|]. cbn [orelse]. now apply dget_dset_other.
Qed.
Lemma merge_dwf y : forall x, dwf x -> dwf (merge x y).
Proof. unfold merge. induction y as [|[k v] y IH]; intros x W; [exact W|]. cbn [fold_left]. apply IH. now apply dwf_dset. Qed.
Lemma as_opts_get d k : dget k (as_opts d) = param d k.
Proof. unfold param. induction d as [|[k' v] d IH]; [reflexivity|]. cbn. destruct (eqb k k'); [reflexivity|exact IH]. Qed.
Lemma as_opts_dwf d : dwf d -> dwf (as_opts d).
Proof. unfold dwf, dkeys, as_opts. rewrite map_map. cbn. auto. Qed.

(** ** [Init] *)
Lemma known_prefix o : starts_with (tx "known/") (known o) = true.
Proof. unfold starts_with, known. rewrite firstn_app, Nat.sub_diag, firstn_O, app_nil_r, firstn_all. apply eqb_refl. Qed.
Lemma init_get : forall l init i, init_options l init = Some i -> dwf init -> dwf i
  /\ (forall k, starts_with (tx "known/") k = false -> k <> tx "__name__" ->
        dget k i = orelse (dget k init) (match dget k l with Some (GVal v) => Some (VText v) | _ => None end)).
Proof.
  induction l as [|[o g] l IH]; intros init i H W; cbn [init_options] in H.
  - injection H as <-. split; [exact W|]. intros k _ _. cbn. destruct (dget k init); reflexivity.
  - destruct (eqb_spec o (tx "__name__")) as [->|No].
    { destruct (IH _ _ H W) as [W' G]. split; [exact W'|]. intros k Hk Nk. rewrite (G k Hk Nk). cbn [dget]. destruct (eqb_spec k (tx "__name__")); [contradiction|reflexivity]. }
    destruct (negb (starts_with (tx "known/") o) || negb (dmem o init)) eqn:Need.
    + destruct g as [v| | | |]; try discriminate.
      set (i1 := if starts_with (tx "known/") o then init else dset (known o) (VText v) init) in H.
      assert (W1 : dwf i1) by (unfold i1; destruct (starts_with _ o); [exact W|now apply dwf_dset]).
      assert (W2 : dwf (if dmem o i1 then i1 else dset o (VText v) i1)) by (destruct (dmem o i1); [exact W1|now apply dwf_dset]).
      destruct (IH _ _ H W2) as [W' G]. split; [exact W'|]. intros k Hk Nk. rewrite (G k Hk Nk).
      assert (G1 : dget k i1 = dget k init).
      { unfold i1. destruct (starts_with (tx "known/") o) eqn:K; [reflexivity|]. apply dget_dset_other. intros ->. now rewrite known_prefix in Hk. }
      cbn [dget]. destruct (eqb_spec k o) as [->|Nk'].
      * destruct (dmem o i1) eqn:M.
        -- rewrite G1. unfold dmem in M. rewrite G1 in M. destruct (dget o init); [reflexivity|discriminate].
        -- rewrite dget_dset_same. unfold dmem in M. rewrite G1 in M. destruct (dget o init); [discriminate|reflexivity].
      * replace (dget k (if dmem o i1 then i1 else dset o (VText v) i1)) with (dget k init); [reflexivity|]. rewrite <- G1. destruct (dmem o i1); [reflexivity|]. symmetry. now apply dget_dset_other.
    + destruct (IH _ _ H W) as [W' G]. split; [exact W'|]. intros k Hk Nk. rewrite (G k Hk Nk). cbn [dget]. destruct (eqb_spec k o) as [->|]; [|reflexivity].
      rewrite Hk in Need. discriminate.
Qed.

(** ** A file *)
Lemma def_init tpl f P init all o i : def_get_options E tpl f P init all = Some (o, i) -> dwf init -> dwf i
  /\ forall k, starts_with (tx "known/") k = false -> k <> tx "__name__" -> dget k i = orelse (dget k init) (own_init f k).
Proof.
  intros H W. unfold def_get_options in H. destruct (get_options _ _ _ _ _ _ _) as [o'|]; [|discriminate].
  assert (X : exists i', match d_init f with Some l => init_options l init | None => Some init end = Some i' /\ i' = i).
  { destruct (match d_init f with Some l => init_options l init | None => Some init end) as [i'|]; [|discriminate]. exists i'. split; [reflexivity|].
    destruct (if all then _ else _); [now injection H|discriminate]. }
  destruct X as (i' & X & ->). unfold own_init. destruct (d_init f) as [l|].
  - destruct (init_get _ _ _ X W) as [W' G]. split; [exact W'|exact G].
  - injection X as ->. split; [exact W|]. intros k _ _. destruct (dget k i); reflexivity.
Qed.
Lemma def_values tpl f P init o i : def_get_options E tpl f P init false = Some (o, i) -> dwf init -> NoDup (names tpl) ->
  (forall t n d, In (t, n, d) tpl -> starts_with (tx "known/") n = false /\ n <> tx "__name__" /\ d = VNone) ->
  dwf o /\ forall k, In k (names tpl) -> dget k (merge o i) =
    orelse (dget k init) (orelse (own_init f k) (if dmem k P then None else option_value E false (d_get f (merge P init) k) TString VNone)).
Proof.
  intros H W ND T. destruct (def_init _ _ _ _ _ _ _ H W) as [Wi Gi]. unfold def_get_options in H.
  destruct (get_options E (d_get f (merge P init)) tpl (merge P init) false false []) as [o'|] eqn:GO; [|discriminate].
  assert (o' = o). { destruct (match d_init f with Some l => init_options l init | None => Some init end); [|discriminate]. now injection H. } subst o'.
  destruct (get_options_spec _ _ _ _ _ _ _ GO ND dwf_nil) as (Wo & _ & A & B). split; [exact Wo|]. intros k Ik. rewrite merge_get by exact Wi.
  apply in_map_iff in Ik as ([[t n] d] & Hn & Ik). cbn in Hn. subst n. destruct (T _ _ _ Ik) as (K1 & K2 & ->). rewrite (Gi k K1 K2).
  destruct (dget k init) as [v|] eqn:D; [reflexivity|]. cbn [orelse]. destruct (own_init f k); [reflexivity|]. cbn [orelse].
  assert (Dm : dmem k (merge P init) = dmem k P). { unfold dmem. rewrite merge_get by exact W. rewrite D. reflexivity. }
  destruct (dmem k P) eqn:M.
  - rewrite A by (right; exact Dm). reflexivity.
  - rewrite (B t k VNone Ik Dm). unfold option_value. destruct (d_get f (merge P init) k); reflexivity.
Qed.
End WithEnv.
