(** Property theorems about the time abbreviations (C39). *)
From Coq Require Import QArith.
From Verif Require Import Base Text MyTime_Model MyTime_Spec MyTime_Proofs.
From Coq Require Import ZifyBool ZifyNat.
Local Open Scope Z_scope.

(** C39: a text of quantities - any numbers, any spelling of the units in any case, with or without
    spaces, joined by nothing, spaces or signs - means the sum of the quantities. *)
Theorem C39_meaning : forall minus first rest,
  item_ok first -> joints_ok first rest -> Forall (fun q => item_ok (snd q)) rest ->
  exists q, str2seconds (time_text minus first rest) = Some q /\ (q == time_value minus first rest)%Q.
Proof. exact str2seconds_text. Qed.
Example C39_demo :
  let first := mkItem 1 [] 0 (tx "d") in
  let rest := [(Next 0, mkItem 12 [] 0 (tx "H")); (Op 1 true 1, mkItem 30 [] 1 (tx "Min")); (Next 2, mkItem 1 [5] 0 (tx "hours")); (Next 1, mkItem 7 [] 0 [])] in
  time_text false first rest = tx "1d12H - 30 Min  1.5hours 7" /\
  item_ok first /\ joints_ok first rest /\ Forall (fun q => item_ok (snd q)) rest /\ (time_value false first rest == 133207)%Q.
Proof.
  cbv zeta. split; [vm_compute; reflexivity|]. split; [split; [cbn; lia|split; [constructor|discriminate]]|].
  split; [cbn; repeat split; intros X; try discriminate; eauto|]. split; [|vm_compute; reflexivity].
  repeat (apply Forall_cons || apply Forall_nil); (split; [cbn; lia|split; [repeat constructor; lia|discriminate]]).
Qed.

(** C39: a number of seconds that is shown with seconds is shown exactly. *)
Theorem C39_round_trip : forall s, s < 3595 -> exists q, str2seconds (seconds2str s) = Some q /\ (q == inject_Z s)%Q.
Proof.
  intros s L. destruct (Z.ltb_spec s 0); [now apply round_trip_neg|]. destruct (round_trip s) as (q & E & V); [lia|]. exists q. split; [exact E|].
  rewrite V, groups_secs by lia. destruct (Z.leb_spec 31536000 s); [lia|]. destruct (Z.leb_spec 604800 s); [lia|]. destruct (Z.leb_spec 86400 s); [lia|]. destruct (Z.leb_spec 3595 s); [lia|]. reflexivity.
Qed.
(** C39: above an hour what is shown is near: it is less than a minute too small and at most five
    seconds too big below a day, at most half a minute off below a week, at most half an hour
    below a year. *)
Theorem C39_near : forall s, 3595 <= s < 31536000 -> exists q z, str2seconds (seconds2str s) = Some q /\ (q == inject_Z z)%Q /\
  (s < 86400 -> -5 <= s - z <= 55) /\ (86400 <= s < 604800 -> -30 <= s - z <= 30) /\ (604800 <= s -> -1800 <= s - z <= 1800).
Proof.
  intros s L. destruct (round_trip s) as (q & E & V); [lia|]. exists q, (secs_of (groups s)). split; [exact E|]. split; [exact V|]. rewrite groups_secs by lia.
  destruct (Z.leb_spec 31536000 s); [lia|]. destruct (Z.leb_spec 604800 s).
  - pose proof (round_div_near s 3600). repeat split; lia.
  - destruct (Z.leb_spec 86400 s).
    + pose proof (round_div_near s 60). repeat split; lia.
    + destruct (Z.leb_spec 3595 s); [|lia]. pose proof (round_div_near s 10). repeat split; try lia; Z.to_euclidean_division_equations; lia.
Qed.
(** C39: whole minutes below a week and whole hours below a year are shown exactly. *)
Theorem C39_whole_units : forall s, 0 <= s -> (s < 604800 /\ s mod 60 = 0 \/ s < 31536000 /\ s mod 3600 = 0) ->
  exists q, str2seconds (seconds2str s) = Some q /\ (q == inject_Z s)%Q.
Proof.
  intros s N H. destruct (round_trip s N) as (q & E & V). exists q. split; [exact E|]. rewrite V. apply inject_Z_injective. rewrite groups_secs by lia.
  assert (R : forall d, 0 < d -> s mod d = 0 -> d * round_div s d = s).
  { intros d Hd M. pose proof (round_div_near s d Hd) as X. apply Z.mod_divide in M as [k M]; [|lia]. subst s. assert (Y : k - round_div (k * d) d = 0); [|nia]. nia. }
  destruct (Z.leb_spec 31536000 s); [lia|]. destruct (Z.leb_spec 604800 s); [apply R; lia|].
  assert (M : s mod 60 = 0) by (destruct H as [H|H]; [lia|]; Z.to_euclidean_division_equations; lia).
  destruct (Z.leb_spec 86400 s); [apply R; lia|]. destruct (Z.leb_spec 3595 s); [|reflexivity].
  assert (M10 : s mod 10 = 0) by (Z.to_euclidean_division_equations; lia). pose proof (R 10 ltac:(lia) M10). set (t := round_div s 10) in *. clearbody t. Z.to_euclidean_division_equations; lia.
Qed.
(** C39: at most three groups, the first has the biggest unit. *)
Theorem C39_groups : forall s, 0 <= s -> s <> 0 -> exists first rest,
  seconds2str s = time_text false first rest /\ item_ok first /\ Forall (fun q => fst q = Next 1 /\ item_ok (snd q)) rest /\ (length rest <= 2)%nat /\
  exists before after, map tx ["y"; "w"; "d"; "h"; "m"; "s"]%string = before ++ it_unit first :: after /\
  forall u, In u (map (fun q => it_unit (snd q)) rest) -> In u after.
Proof.
  intros s N Z0. rewrite s2s_groups by exact Z0. pose proof (groups_are_ok s N) as G.
  assert (Sh : exists p l, groups s = p :: l /\ (length l <= 2)%nat /\ exists before after, map tx ["y"; "w"; "d"; "h"; "m"; "s"]%string = before ++ snd p :: after /\ forall u, In u (map snd l) -> In u after).
  { unfold groups. cbv zeta.
    assert (OG : forall b n u x, In x (map snd (opt_group b n u)) -> x = u) by (intros b n u x; destruct b; cbn; intuition).
    assert (OL : forall b n u, (length (opt_group b n u) <= 1)%nat) by (intros b n u; destruct b; cbn; lia).
    assert (In2 : forall b n u b' n' u' x, In x (map snd (opt_group b n u ++ opt_group b' n' u')) -> x = u \/ x = u') by (intros b n u b' n' u' x I; rewrite map_app, in_app_iff in I; destruct I as [I|I]; apply OG in I; auto).
    destruct (31536000 <=? s); [|destruct (604800 <=? s); [|destruct (86400 <=? s); [|destruct (3595 <=? s)]]].
    - eexists _, _. split; [reflexivity|]. split; [rewrite app_length; pose proof OL; match goal with |- (length ?a + length ?b <= 2)%nat => pose proof (OL _ _ _ : (length a <= 1)%nat); pose proof (OL _ _ _ : (length b <= 1)%nat); lia end|].
      exists [], (map tx ["w"; "d"; "h"; "m"; "s"]%string). split; [reflexivity|]. intros u I. apply In2 in I as [->| ->]; cbn; auto.
    - eexists _, _. split; [reflexivity|]. split; [rewrite app_length; pose proof OL; match goal with |- (length ?a + length ?b <= 2)%nat => pose proof (OL _ _ _ : (length a <= 1)%nat); pose proof (OL _ _ _ : (length b <= 1)%nat); lia end|].
      exists [tx "y"], (map tx ["d"; "h"; "m"; "s"]%string). split; [reflexivity|]. intros u I. apply In2 in I as [->| ->]; cbn; auto.
    - eexists _, _. split; [reflexivity|]. split; [rewrite app_length; pose proof OL; match goal with |- (length ?a + length ?b <= 2)%nat => pose proof (OL _ _ _ : (length a <= 1)%nat); pose proof (OL _ _ _ : (length b <= 1)%nat); lia end|].
      exists [tx "y"; tx "w"], (map tx ["h"; "m"; "s"]%string). split; [reflexivity|]. intros u I. apply In2 in I as [->| ->]; cbn; auto.
    - eexists _, _. split; [reflexivity|]. split; [match goal with |- (length ?a <= 2)%nat => pose proof (OL _ _ _ : (length a <= 1)%nat); lia end|].
      exists [tx "y"; tx "w"; tx "d"], (map tx ["m"; "s"]%string). split; [reflexivity|]. intros u I. apply OG in I as ->; cbn; auto.
    - destruct (60 <=? s); cbn [opt_group app].
      + eexists _, _. split; [reflexivity|]. split; [match goal with |- (length ?a <= 2)%nat => pose proof (OL _ _ _ : (length a <= 1)%nat); lia end|].
        exists [tx "y"; tx "w"; tx "d"; tx "h"], [tx "s"]. split; [reflexivity|]. intros u I. apply OG in I as ->; cbn; auto.
      + eexists _, _. split; [reflexivity|]. split; [cbn; lia|]. exists [tx "y"; tx "w"; tx "d"; tx "h"; tx "m"], []. split; [reflexivity|]. intros u []. }
  destruct Sh as (p & l & E & L & before & after & B & A). rewrite E in *.
  assert (F : Forall (fun p => 0 <= fst p) (p :: l)) by (eapply Forall_impl; [|exact G]; cbn; tauto).
  exists (group_item p), (map (fun p => (Next 1, group_item p)) l). split; [now apply groups_text|]. inversion G as [|? ? G1 G2]; subst.
  assert (IO : forall p, 0 <= fst p /\ unit_seconds (snd p) <> None /\ snd p <> [] -> item_ok (group_item p)) by (intros p' (A' & B' & _); split; [exact A'|split; [constructor|exact B']]).
  split; [now apply IO|]. split; [apply Forall_map; eapply Forall_impl; [|exact G2]; cbn; auto|]. split; [now rewrite map_length|].
  exists before, after. split; [exact B|]. intros u I. apply A. rewrite map_map in I. exact I.
Qed.

(** C39 above a year: the year is shown as 365 days, but read as 365.25 days: what is read back is
    six hours more for each year shown (half a day apart by the rounding). *)
Theorem C39_years : forall s, 31536000 <= s -> exists q z y, str2seconds (seconds2str s) = Some q /\ (q == inject_Z (z + 21600 * y))%Q /\
  -43200 <= s - z <= 43200 /\ 0 <= z - y * 31536000 < 31536000.
Proof.
  intros s L. destruct (round_trip s) as (q & E & V); [lia|]. exists q, (86400 * round_div s 86400), (round_div s 86400 / 365). split; [exact E|].
  rewrite groups_secs in V by lia. destruct (Z.leb_spec 31536000 s); [|lia]. split; [exact V|]. pose proof (round_div_near s 86400). split; [lia|]. Z.to_euclidean_division_equations; lia.
Qed.
Theorem C39_year_refuted : exists s q, s mod 86400 = 0 /\ str2seconds (seconds2str s) = Some q /\ ~ (q == inject_Z s)%Q.
Proof. exists 315360000. eexists. split; [reflexivity|]. split; [vm_compute; reflexivity|]. vm_compute. discriminate. Qed.
(** Three single digits without units cannot be read: the second is eaten by the first match. *)
Theorem C39_digits_refuted : str2seconds (tx "1 2 3") = None /\ (exists q, str2seconds (tx "1 22 3") = Some q /\ (q == 26)%Q) /\ exists q, str2seconds (tx "1 2") = Some q /\ (q == 3)%Q.
Proof. split; [vm_compute; reflexivity|]. split; eexists; (split; [vm_compute; reflexivity|vm_compute; reflexivity]). Qed.
(** A number with a leading zero is no number, with decimals it is one. *)
Theorem C39_leading_zero_refuted : str2seconds (tx "08h") = None /\ exists q, str2seconds (tx "08.0h") = Some q /\ (q == 28800)%Q.
Proof. split; [vm_compute; reflexivity|]. eexists. split; vm_compute; reflexivity. Qed.

Example C39_demo_show : map seconds2str [0; 59; 3590; 3595; 86400*2+3599; 86400*2+3600*7+60*15; 86400*390; 86400*368; -90] =
  map tx ["0"; "59s"; "59m 50s"; "1h"; "2d 1h"; "2d 7h 15m"; "1y 3w 4d"; "1y 3d"; "-90s"]%string.
Proof. vm_compute. reflexivity. Qed.

Print Assumptions C39_meaning.
Print Assumptions C39_demo.
Print Assumptions C39_round_trip.
Print Assumptions C39_near.
Print Assumptions C39_whole_units.
Print Assumptions C39_groups.
Print Assumptions C39_years.
Print Assumptions C39_year_refuted.
Print Assumptions C39_digits_refuted.
Print Assumptions C39_leading_zero_refuted.
Print Assumptions C39_demo_show.
