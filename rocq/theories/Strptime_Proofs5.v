(** Dates without a year are not ahead of the clock; dates that do not exist; TAI64N. *)
From Verif Require Import Base Text Strptime_Model Strptime_Spec Strptime_Proofs Strptime_Proofs2 Strptime_Proofs3 Strptime_Proofs4.
From Coq Require Import ZifyBool ZifyNat.
Local Open Scope string_scope. Local Open Scope list_scope. Local Open Scope Z_scope.

(** the groups that can set a variable *)
Definition setters (x : string) : list string :=
  if eqb x "year" then ["y"; "Y"] else if eqb x "julian" then ["j"] else if eqb x "week_of_year" then ["U"; "W"] else [].
Ltac other :=
  match goal with
  | H : bind ?r _ = Ok _ |- _ => destruct r; cbn [bind] in H; [| discriminate H]; other
  | H : (if ?b then _ else _) = Ok _ |- _ => destruct b; other
  | H : Ok _ = Ok _ |- _ => injection H as <-; rewrite ?dget_dset_other by discriminate; reflexivity
  end.
Lemma field_unset fd k t v v' x : In x ["year"; "julian"; "week_of_year"] -> ~ In k (setters x) ->
  field fd k t v = Ok v' -> dget x v' = dget x v.
Proof.
  intros X N. unfold field.
  destruct (eqb k "y") eqn:E1; [apply eqb_true in E1; subst k; cbn [In] in X; destruct X as [<- | [<- | [<- | []]]]; [exfalso; apply N; vm_compute; tauto | |]; intros H; other |].
  destruct (eqb k "Y") eqn:E2; [apply eqb_true in E2; subst k; cbn [In] in X; destruct X as [<- | [<- | [<- | []]]]; [exfalso; apply N; vm_compute; tauto | |]; intros H; other |].
  destruct (eqb k "j") eqn:E3.
  { apply eqb_true in E3. subst k. cbn [In] in X. destruct X as [<- | [<- | [<- | []]]]; [| exfalso; apply N; vm_compute; tauto |];
      change (eqb "j" "m") with false; change (eqb "j" "B") with false; change (eqb "j" "b") with false; change (eqb "j" "d") with false;
      change (eqb "j" "H") with false; change (eqb "j" "I") with false; change (eqb "j" "M") with false; change (eqb "j" "S") with false;
      change (eqb "j" "A") with false; change (eqb "j" "a") with false; change (eqb "j" "w") with false; cbv iota; intros H; other. }
  destruct (eqb k "U" || eqb k "W") eqn:E4.
  { assert (K : In k ["U"; "W"]) by (apply orb_true_iff in E4 as [E4 | E4]; apply eqb_true in E4; subst; cbn; tauto).
    assert (KX : forall y, In y ["m"; "B"; "b"; "d"; "H"; "I"; "M"; "S"; "A"; "a"; "w"] -> eqb k y = false).
    { intros y Hy. apply eqb_neq. intros ->. cbn [In] in K, Hy. destruct K as [<- | [<- | []]]; decompose [or] Hy; (discriminate || contradiction). }
    rewrite !KX by (cbn [In]; tauto). cbn [In] in X. destruct X as [<- | [<- | [<- | []]]]; [| | exfalso; apply N; exact K]; intros H; other. }
  clear E1 E2 E3 E4. cbn [In] in X. intros H. destruct X as [<- | [<- | [<- | []]]]; other.
Qed.
Lemma fields_unset fd l v v' x : In x ["year"; "julian"; "week_of_year"] -> (forall k t, In (k, Some t) l -> ~ In k (setters x)) ->
  fields fd l v = Ok v' -> dget x v' = dget x v.
Proof.
  intros X. revert v. induction l as [| [k [t |]] l IH]; intros v N H; cbn [fields] in H.
  - congruence.
  - destruct (field fd k t v) as [v1 |] eqn:F; [| discriminate]. cbn [bind] in H.
    rewrite (IH v1); [| intros k' t' I; apply (N k' t'); now right | exact H].
    eapply field_unset; [exact X | apply (N k t); now left | exact F].
  - eapply IH; [intros k' t' I; apply (N k' t'); now right | exact H].
Qed.
Lemma shift_inv t dt t' : shift t dt = Ok t' -> t' = t + dt.
Proof. unfold shift. destruct (_ && _); [| discriminate]. congruence. Qed.
Lemma not_ahead w fd dtz today n r : now_is w today n ->
  (forall k t, In (k, Some t) fd -> ~ In k ["Y"; "y"; "j"; "U"; "W"]) ->
  strptime w fd dtz = Ok r -> exists t, t <= n + 86400 /\ (r = t \/ local w t = Ok r).
Proof.
  intros NOW NK H. unfold strptime in H. destruct (fields fd fd vars0) as [v |] eqn:F; [| discriminate]. cbn [bind] in H.
  assert (VY : dget "year" v = None).
  { rewrite (fields_unset _ _ _ _ "year" ltac:(cbn; tauto) ltac:(intros k t I C; apply (NK k t I); change (setters "year") with ["y"; "Y"] in C; cbn [In] in *; tauto) F). reflexivity. }
  assert (VJ : dget "julian" v = None).
  { rewrite (fields_unset _ _ _ _ "julian" ltac:(cbn; tauto) ltac:(intros k t I C; apply (NK k t I); change (setters "julian") with ["j"] in C; cbn [In] in *; tauto) F). reflexivity. }
  assert (VW : dget "week_of_year" v = None).
  { rewrite (fields_unset _ _ _ _ "week_of_year" ltac:(cbn; tauto) ltac:(intros k t I C; apply (NK k t I); change (setters "week_of_year") with ["U"; "W"] in C; cbn [In] in *; tauto) F). reflexivity. }
  unfold resolve in H. rewrite VY in H. cbv beta iota in H.
  destruct (now_fields _ _ _ NOW) as (NY & NM & ND). rewrite NY, NM, ND in H.
  assert (BJ : by_julian v (year today) = Ok (year today, dget "month" v, dget "day" v)).
  { unfold by_julian. rewrite VJ, VW. destruct (dget "month" v), (dget "day" v); reflexivity. }
  rewrite BJ in H. cbn [bind] in H. clear BJ.
  destruct (match dget "month" v, dget "day" v with None, None => (Some (month today), Some (day today), true) | _, _ => (dget "month" v, dget "day" v, false) end) as [[mo da] tod] eqn:MD.
  destruct mo as [mo |]; [| discriminate]. destruct da as [da |]; [| discriminate].
  destruct (dget "hour" v) as [h |]; [| discriminate]. destruct (dget "minute" v) as [mi |]; [| discriminate].
  destruct (dget "second" v) as [s |]; [| discriminate].
  destruct (mk_datetime (year today) mo da h mi s) as [t0 |] eqn:MK; [| discriminate]. cbn [bind] in H.
  set (tz := match dget "tzoffset" v with Some o => Some o | None => dtz end) in *.
  destruct (match tz with Some o => shift t0 (- (o * 60)) | None => Ok t0 end) as [t1 |] eqn:T1; [| discriminate]. cbn [bind] in H.
  destruct (if tod && (w_now w <? t1) then shift t1 (-86400) else Ok t1) as [t2 |] eqn:T2; [| discriminate]. cbn [bind] in H.
  destruct (shift (w_now w) 86400) as [tm |] eqn:TM; [| discriminate]. cbn [bind] in H. apply shift_inv in TM.
  destruct NOW as [[cn NSH] NE]. pose proof (shows_ord _ _ _ NSH) as [NO NB]. apply shows_naive in NSH as (NV & _ & _).
  destruct (tm <? t2) eqn:LATE.
  - destruct (replace_date t2 (year today - 1) mo da) as [t3 |] eqn:RP; [| discriminate]. cbn [bind] in H.
    assert (B : t3 <= w_now w).
    { unfold replace_date in RP. destruct (_ && _) eqn:EE in RP; [| discriminate]. injection RP as <-.
      assert (V' : valid (year today - 1) mo da) by (unfold valid; lia).
      pose proof (ymd_year _ _ _ V') as B1. apply is_date_iff in NV. pose proof (ymd_year _ _ _ NV) as B2. fold (ord today) in B2.
      replace (year today - 1 + 1) with (year today) in B1 by lia.
      pose proof (Z.mod_pos_bound t2 86400 ltac:(lia)). lia. }
    exists (t3 - day0). split; [lia |]. destruct tz as [o |].
    + injection H as <-. left. unfold timegm, day0. lia.
    + right. unfold local. now replace (t3 - day0 + day0) with t3 by lia.
  - exists (t2 - day0). split; [lia |]. destruct tz as [o |].
    + cbn [bind] in H. injection H as <-. left. unfold timegm, day0. lia.
    + right. unfold local. cbn [bind] in H. now replace (t2 - day0 + day0) with t2 by lia.
Qed.

Lemma resolve_bad w v d dtz y m dd : agree v d -> d Year = Some y -> d Month = Some m -> d Day = Some dd ->
  ~ (is_date (mkD y m dd) /\ is_clock (clock_of d)) -> resolve w v dtz = Err ValueErr.
Proof.
  intros AG Y M D N. pose proof AG as [A B]. unfold resolve.
  change (dget "year" v) with (dget (var Year) v). rewrite A by (cbn; intuition discriminate). rewrite Y. cbv beta iota.
  rewrite (by_julian_said _ _ _ _ _ AG M D). cbn [bind]. cbv beta iota.
  change (dget "hour" v) with (dget (var Hour) v). change (dget "minute" v) with (dget (var Minute) v).
  change (dget "second" v) with (dget (var Second) v). rewrite !B by (cbn; tauto).
  rewrite mk_bad; [reflexivity |]. exact N.
Qed.
Lemma resolve_bad_year w v d dtz today n m dd : agree v d -> d Year = None -> d Month = Some m -> d Day = Some dd ->
  now_is w today n -> ~ (is_date (mkD (year today) m dd) /\ is_clock (clock_of d)) -> resolve w v dtz = Err ValueErr.
Proof.
  intros AG Y M D NOW N. pose proof AG as [A B]. unfold resolve.
  change (dget "year" v) with (dget (var Year) v). rewrite A by (cbn; intuition discriminate). rewrite Y. cbv beta iota.
  destruct (now_fields _ _ _ NOW) as (NY & _). rewrite NY.
  rewrite (by_julian_said _ _ _ _ _ AG M D). cbn [bind]. cbv beta iota.
  change (dget "hour" v) with (dget (var Hour) v). change (dget "minute" v) with (dget (var Minute) v).
  change (dget "second" v) with (dget (var Second) v). rewrite !B by (cbn; tauto).
  rewrite mk_bad; [reflexivity |]. exact N.
Qed.

Lemma read_zeros16 j n : 0 <= n -> read 16 (repeat "0"%char j ++ show 16 n) = Some n.
Proof.
  intros P. pose proof (read_show 16 n ltac:(lia) P) as R.
  assert (NE : show 16 n <> []) by (unfold show; intros E; apply map_eq_nil in E; now apply digits_nonempty in E).
  induction j as [| j IH]; [exact R |]. cbn [repeat app read].
  assert (RD : option_map (value 16) (read_digits 16 (repeat "0"%char j ++ show 16 n)) = Some n).
  { unfold read in IH. destruct (repeat "0"%char j ++ show 16 n) eqn:E; [| exact IH]. discriminate. }
  cbn [read_digits]. change (digit_val "0"%char) with (Some 0). destruct (read_digits 16 _) as [l |]; [| discriminate].
  cbn [Z.ltb Z.compare option_map] in *. rewrite <- RD. f_equal.
Qed.
