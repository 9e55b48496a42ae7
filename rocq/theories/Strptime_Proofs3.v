(** What the loop over the groups collects. *)
From Verif Require Import Base Text Strptime_Model Strptime_Spec Strptime_Proofs2.
From Coq Require Import ZifyBool ZifyNat.
Local Open Scope string_scope. Local Open Scope list_scope. Local Open Scope Z_scope.

Definition var (w : what) : string :=
  match w with
  | Year => "year" | Month => "month" | Day => "day" | Hour => "hour" | Minute => "minute" | Second => "second"
  | Weekday => "weekday" | DayOfYear => "julian" | Week => "week_of_year" | Zone => "tzoffset"
  end.
Lemma var_inj w w' : var w = var w' -> w = w'.
Proof. destruct w, w'; intros H; try reflexivity; discriminate. Qed.
Lemma var_start w : var w <> "week_of_year_start".
Proof. destruct w; discriminate. Qed.
Definition keys_of (w : what) : list string :=
  match w with
  | Year => ["Y"; "y"] | Month => ["m"; "B"; "b"] | Day => ["d"] | Hour => ["H"; "I"] | Minute => ["M"] | Second => ["S"]
  | Weekday => ["A"; "a"; "w"] | DayOfYear => ["j"] | Week => ["U"; "W"] | Zone => ["z"; "Z"]
  end.
Lemma says_key hf k t w n : says hf k t w n -> In k (keys_of w).
Proof. intros H; destruct H; cbn [keys_of In]; tauto. Qed.
Lemma says_what hf k t t' w w' n n' : says hf k t w n -> says hf k t' w' n' -> w = w'.
Proof.
  intros A B. apply says_key in A, B.
  destruct w, w'; try reflexivity; exfalso; cbn [keys_of In] in A, B; decompose [or] A; decompose [or] B; subst; try discriminate; tauto.
Qed.

Definition start_of (k : string) (v : vars) : option Z :=
  if eqb k "U" then Some 6 else if eqb k "W" then Some 0 else dget "week_of_year_start" v.
Lemma half_hour fd hf n : NoDup (map fst fd) -> half_of fd hf -> 1 <= n <= 12 -> hour12 fd n = Ok (on_12_hours hf n).
Proof.
  intros ND H R. unfold hour12.
  assert (P : forall t, In ("p", Some t) fd -> dget "p" fd = Some (Some t)) by (intros t I; now apply In_dget).
  destruct hf; cbn [half_of on_12_hours] in *.
  - assert (M : (if n =? 12 then 0 else n) = n mod 12) by (destruct (n =? 12) eqn:E; Z.to_euclidean_division_equations; lia).
    destruct H as [NP | (t & I & H)].
    + destruct (dget "p" fd) as [o |] eqn:D; [apply dget_In in D; now apply NP in D |].
      cbn [bind]. change (inb [] [[]; tx "am"]) with true. cbv iota. now rewrite M.
    + rewrite (P t I). cbn [bind]. destruct H as [-> | H].
      * change (inb (lower []) [[]; tx "am"]) with true. cbv iota. now rewrite M.
      * rewrite (lower_same _ _ H eq_refl). change (inb (tx "am") [[]; tx "am"]) with true. cbv iota. now rewrite M.
  - destruct H as (t & I & H). rewrite (P t I). cbn [bind]. rewrite (lower_same _ _ H eq_refl).
    change (inb (tx "pm") [[]; tx "am"]) with false. change (eqb (tx "pm") (tx "pm")) with true. cbv iota.
    f_equal. destruct (n =? 12) eqn:E; Z.to_euclidean_division_equations; lia.
Qed.
Lemma field_says fd hf k t w n v : NoDup (map fst fd) -> (k = "I" -> half_of fd hf) -> says hf k t w n ->
  exists v', field fd k t v = Ok v' /\ dget (var w) v' = Some n /\ (forall w', w' <> w -> dget (var w') v' = dget (var w') v)
    /\ dget "week_of_year_start" v' = start_of k v.
Proof.
  intros ND HF H.
  assert (G : forall x, field fd k t v = Ok (dset (var w) n v) -> k = x -> ~ In x ["U"; "W"] ->
     exists v', field fd k t v = Ok v' /\ dget (var w) v' = Some n /\ (forall w', w' <> w -> dget (var w') v' = dget (var w') v)
    /\ dget "week_of_year_start" v' = start_of k v).
  { intros x E -> NW. exists (dset (var w) n v). split; [exact E |]. split; [apply dget_dset_same |]. split.
    - intros w' NE. apply dget_dset_other. intros C. apply NE. now apply var_inj.
    - rewrite dget_dset_other by (intros C; now apply (var_start w)). unfold start_of.
      destruct (eqb x "U") eqn:EU; [apply eqb_true in EU; subst; cbn [In] in NW; tauto |].
      destruct (eqb x "W") eqn:EW; [apply eqb_true in EW; subst; cbn [In] in NW; tauto | reflexivity]. }
  assert (NU : forall x, In x ["Y"; "y"; "m"; "B"; "b"; "d"; "H"; "I"; "M"; "S"; "A"; "a"; "w"; "j"; "z"; "Z"] -> ~ In x ["U"; "W"]).
  { intros x I J. cbn [In] in I, J. destruct J as [<- | [<- | []]]; decompose [or] I; (discriminate || contradiction). }
  assert (UW : forall s, py_int t = Ok n -> w = Week -> (k = "U" /\ s = 6 \/ k = "W" /\ s = 0) ->
     exists v', field fd k t v = Ok v' /\ dget (var w) v' = Some n /\ (forall w', w' <> w -> dget (var w') v' = dget (var w') v)
    /\ dget "week_of_year_start" v' = start_of k v).
  { intros s PI -> K. exists (dset "week_of_year_start" s (dset "week_of_year" n v)). split; [| split; [| split]].
    - destruct K as [[-> ->] | [-> ->]]; 
        [change (field fd "U" t v) with (bind (py_int t) (fun n => Ok (dset "week_of_year_start" 6 (dset "week_of_year" n v))))
        |change (field fd "W" t v) with (bind (py_int t) (fun n => Ok (dset "week_of_year_start" 0 (dset "week_of_year" n v))))];
        rewrite PI; reflexivity.
    - rewrite dget_dset_other by discriminate. apply dget_dset_same.
    - intros w' NE. rewrite dget_dset_other by apply var_start. apply dget_dset_other. intros C. apply NE. now apply var_inj.
    - rewrite dget_dset_same. destruct K as [[-> ->] | [-> ->]]; reflexivity. }
  destruct H as [t n N | t n N L | t n N | t n a b I S | t n a b I S | t n N | t n N | t n N L | t n N | t n N
                 | t n a b I S | t n a b I S | t n N L | t n N | t n N | t n N | t n N | t n N].
  all: try (apply py_int_numeral in N as PI).
  - eapply G; [| reflexivity | apply NU; cbn; tauto].
    change (field fd "Y" t v) with (bind (py_int t) (fun n => Ok (dset "year" n v))). rewrite PI. reflexivity.
  - eapply G; [| reflexivity | apply NU; cbn; tauto]. 
    change (field fd "y" t v) with (bind (py_int t) (fun n => Ok (dset "year" (if n <=? 2000 then n + 2000 else n) v))).
    rewrite PI. cbn [bind var].
    destruct N as [N _]. destruct (n <=? 2000) eqn:E; [| lia]. now rewrite Z.add_comm.
  - eapply G; [| reflexivity | apply NU; cbn; tauto].
    change (field fd "m" t v) with (bind (py_int t) (fun n => Ok (dset "month" n v))). rewrite PI. reflexivity.
  - eapply G; [| reflexivity | apply NU; cbn; tauto]. pose proof (index_month true t n a b I S) as E. cbv iota in E.
    unfold field. change (eqb "B" "y") with false. change (eqb "B" "Y") with false. change (eqb "B" "m") with false.
    change (eqb "B" "B") with true. cbv iota. rewrite E. reflexivity.
  - eapply G; [| reflexivity | apply NU; cbn; tauto]. pose proof (index_month false t n a b I S) as E. cbv iota in E.
    unfold field. change (eqb "b" "y") with false. change (eqb "b" "Y") with false. change (eqb "b" "m") with false.
    change (eqb "b" "B") with false. change (eqb "b" "b") with true. cbv iota. rewrite E. reflexivity.
  - eapply G; [| reflexivity | apply NU; cbn; tauto].
    change (field fd "d" t v) with (bind (py_int t) (fun n => Ok (dset "day" n v))). rewrite PI. reflexivity.
  - eapply G; [| reflexivity | apply NU; cbn; tauto].
    change (field fd "H" t v) with (bind (py_int t) (fun n => Ok (dset "hour" n v))). rewrite PI. reflexivity.
  - eapply G; [| reflexivity | apply NU; cbn; tauto]. 
    change (field fd "I" t v) with (bind (py_int t) (fun n => bind (hour12 fd n) (fun h => Ok (dset "hour" h v)))).
    rewrite PI. cbn [bind].
    rewrite (half_hour fd hf n ND (HF eq_refl) L). reflexivity.
  - eapply G; [| reflexivity | apply NU; cbn; tauto].
    change (field fd "M" t v) with (bind (py_int t) (fun n => Ok (dset "minute" n v))). rewrite PI. reflexivity.
  - eapply G; [| reflexivity | apply NU; cbn; tauto].
    change (field fd "S" t v) with (bind (py_int t) (fun n => Ok (dset "second" n v))). rewrite PI. reflexivity.
  - eapply G; [| reflexivity | apply NU; cbn; tauto]. pose proof (index_day true t n a b I S) as E. cbv iota in E.
    assert (F : field fd "A" t v = bind (index_of (lower t) f_weekday 0) (fun n => Ok (dset "weekday" n v))) by reflexivity.
    rewrite F, E. reflexivity.
  - eapply G; [| reflexivity | apply NU; cbn; tauto]. pose proof (index_day false t n a b I S) as E. cbv iota in E.
    assert (F : field fd "a" t v = bind (index_of (lower t) a_weekday 0) (fun n => Ok (dset "weekday" n v))) by reflexivity.
    rewrite F, E. reflexivity.
  - eapply G; [| reflexivity | apply NU; cbn; tauto].
    assert (F : field fd "w" t v = bind (py_int t) (fun n => let n := n - 1 in Ok (dset "weekday" (if n <? 0 then 6 else n) v))) by reflexivity.
    rewrite F, PI. cbn [bind var]. do 2 f_equal. destruct N as [N _]. destruct (n - 1 <? 0) eqn:E; Z.to_euclidean_division_equations; lia.
  - eapply G; [| reflexivity | apply NU; cbn; tauto].
    change (field fd "j" t v) with (bind (py_int t) (fun n => Ok (dset "julian" n v))). rewrite PI. reflexivity.
  - eapply (UW 6); auto.
  - eapply (UW 0); auto.
  - eapply G; [| reflexivity | apply NU; cbn; tauto].
    assert (F : field fd "z" t v = if inb t [tx "Z"; tx "UTC"; tx "GMT"] then Ok (dset "tzoffset" 0 v)
       else bind (validate_tz t) (fun o => Ok (dset "tzoffset" o v))) by reflexivity.
    rewrite F. apply validate_zone in N. rewrite N. destruct (inb t _) eqn:E; [| reflexivity].
    apply inb_In in E. cbn [In] in E. destruct E as [E | [E | [E | []]]]; subst t; vm_compute in N; injection N as <-; reflexivity.
  - eapply G; [| reflexivity | apply NU; cbn; tauto].
    assert (F : field fd "Z" t v = if inb t [tx "Z"; tx "UTC"; tx "GMT"] then Ok (dset "tzoffset" 0 v)
       else bind (validate_tz t) (fun o => Ok (dset "tzoffset" o v))) by reflexivity.
    rewrite F. apply validate_zone in N. rewrite N. destruct (inb t _) eqn:E; [| reflexivity].
    apply inb_In in E. cbn [In] in E. destruct E as [E | [E | [E | []]]]; subst t; vm_compute in N; injection N as <-; reflexivity.
Qed.
Lemma field_silent fd k t v : silent k -> field fd k t v = Ok v.
Proof.
  intros H. assert (N : forall x, In x ["Y"; "y"; "m"; "B"; "b"; "d"; "H"; "I"; "M"; "S"; "A"; "a"; "w"; "j"; "U"; "W"; "z"; "Z"] -> eqb k x = false).
  { intros x I. apply eqb_neq. intros ->. now apply H. }
  unfold field. rewrite !N by (cbn [In]; tauto). reflexivity.
Qed.

Lemma fields_ok fd hf l : NoDup (map fst fd) -> ((exists t, In ("I", Some t) fd) -> half_of fd hf) -> (forall x, In x l -> In x fd) -> NoDup (map fst l) ->
  (forall k t, In (k, Some t) l -> silent k \/ exists w n, says hf k t w n) ->
  (forall k t k' t' w n n', In (k, Some t) l -> In (k', Some t') l -> says hf k t w n -> says hf k' t' w n' -> k = k') ->
  forall v0, exists v, fields fd l v0 = Ok v /\
    (forall k t w n, In (k, Some t) l -> says hf k t w n -> dget (var w) v = Some n) /\
    (forall w, (forall k t n, In (k, Some t) l -> ~ says hf k t w n) -> dget (var w) v = dget (var w) v0) /\
    (forall k t n, In (k, Some t) l -> says hf k t Week n -> dget "week_of_year_start" v = start_of k v0) .
Proof.
  intros ND HF. induction l as [| [k [t |]] l IH]; intros SUB NDL RD UQ v0.
  - exists v0. cbn. repeat split; tauto.
  - inversion NDL as [| ? ? NK NDL']; subst.
    assert (NKT : forall t', ~ In (k, Some t') l).
    { intros t' I. apply NK. change k with (fst (k, Some t')). now apply in_map. }
    assert (IH' := fun v => IH (fun x I => SUB x (or_intror I)) NDL' (fun k t I => RD k t (or_intror I))
                     (fun k t k' t' w n n' I J => UQ k t k' t' w n n' (or_intror I) (or_intror J)) v).
    clear IH. cbn [fields]. destruct (RD k t (or_introl eq_refl)) as [SL | (w & n & SY)].
    + rewrite field_silent by exact SL. cbn [bind]. destruct (IH' v0) as (v & E & A & B & C). exists v. split; [exact E |].
      assert (NS : forall t' w n, ~ says hf k t' w n) by
        (intros t' w n SY; apply says_key in SY; apply SL; destruct w; cbn [keys_of In] in *; tauto).
      split; [| split].
      * intros k' t' w n [I | I] SY; [injection I as <- <-; now apply NS in SY | eauto].
      * intros w H. apply B. intros k' t' n I. apply H. now right.
      * intros k' t' n [I | I] SY; [injection I as <- <-; now apply NS in SY | eauto].
    + destruct (field_says fd hf k t w n v0 ND ltac:(intros ->; apply HF; exists t; apply SUB; now left) SY) as (v1 & F & F1 & F2 & F3).
      rewrite F. cbn [bind]. destruct (IH' v1) as (v & E & A & B & C). exists v. split; [exact E |].
      assert (REST : forall k' t' n', In (k', Some t') l -> ~ says hf k' t' w n').
      { intros k' t' n' I SY'. assert (k = k') by (eapply UQ; [now left | right; exact I | exact SY | exact SY']). subst.
        now apply NKT in I. }
      split; [| split].
      * intros k' t' w' n' [I | I] SY'; [| eauto]. injection I as <- <-.
        assert (w = w') by (eapply says_what; [exact SY | exact SY']). subst w'.
        rewrite (B w REST), F1. f_equal.
        destruct (field_says fd hf k t w n' v0 ND ltac:(intros ->; apply HF; exists t; apply SUB; now left) SY') as (v2 & G & G1 & _).
        congruence.
      * intros w' H. assert (w' <> w) by (intros ->; eapply H; [now left | exact SY]).
        rewrite B by (intros k' t' n' I; apply H; now right). now apply F2.
      * intros k' t' n' [I | I] SY'.
        -- injection I as <- <-. assert (w = Week) by (eapply says_what; [exact SY | exact SY']). subst w.
           assert (K : forall l v v', fields fd l v = Ok v' -> (forall k' t' n', In (k', Some t') l -> ~ says hf k' t' Week n') ->
              (forall k t, In (k, Some t) l -> silent k \/ exists w n, says hf k t w n) ->
              (forall x, In x l -> In x fd) ->
              dget "week_of_year_start" v' = dget "week_of_year_start" v).
           { clear - ND HF. induction l as [| [k [t |]] l IH]; intros v v' E N R SUB; cbn [fields] in E.
             - congruence.
             - destruct (R k t (or_introl eq_refl)) as [SL | (w & n & SY)].
               + rewrite field_silent in E by exact SL. cbn [bind] in E. eapply IH; [exact E | intros; apply N; now right | intros; apply R; now right | intros; apply SUB; now right].
               + destruct (field_says fd hf k t w n v ND ltac:(intros ->; apply HF; exists t; apply SUB; now left) SY) as (v1 & F & F1 & F2 & F3).
                 rewrite F in E. cbn [bind] in E. rewrite (IH _ _ E); [| intros; apply N; now right | intros; apply R; now right | intros; apply SUB; now right].
                 rewrite F3. unfold start_of. apply says_key in SY as KK.
                 destruct (eqb k "U") eqn:EU; [apply eqb_true in EU; subst; exfalso; assert (w = Week) by (destruct w; try reflexivity; cbn [keys_of In] in KK; decompose [or] KK; discriminate || tauto); subst; eapply N; [now left | exact SY] |].
                 destruct (eqb k "W") eqn:EW; [apply eqb_true in EW; subst; exfalso; assert (w = Week) by (destruct w; try reflexivity; cbn [keys_of In] in KK; decompose [or] KK; discriminate || tauto); subst; eapply N; [now left | exact SY] |].
                 reflexivity.
             - eapply IH; [exact E | intros; eapply N; right; eassumption | intros; apply R; now right | intros; apply SUB; now right]. }
           rewrite (K _ _ _ E); [exact F3 | exact REST | intros; apply RD; now right | intros; apply SUB; now right].
        -- rewrite (C k' t' n' I SY'). unfold start_of. assert (KK := says_key _ _ _ _ _ SY').
           cbn [keys_of In] in KK. destruct KK as [<- | [<- | []]]; reflexivity.
  - inversion NDL; subst. cbn [fields].
    destruct (IH (fun x I => SUB x (or_intror I)) ltac:(assumption) (fun k t I => RD k t (or_intror I))
                     (fun k t k' t' w n n' I J => UQ k t k' t' w n n' (or_intror I) (or_intror J)) v0) as (v & E & A & B & C).
    exists v. split; [exact E |]. split; [| split].
    + intros k' t' w n [I | I] SY; [discriminate | eauto].
    + intros w H'. apply B. intros k' t' n I. apply H'. now right.
    + intros k' t' n [I | I] SY; [discriminate | eauto].
Qed.

Definition or0 (o : option Z) : Z := match o with Some n => n | None => 0 end.
(** the variables agree with what the line says *)
Definition agree (v : vars) (d : what -> option Z) : Prop :=
  (forall w, ~ In w [Hour; Minute; Second] -> dget (var w) v = d w) /\
  (forall w, In w [Hour; Minute; Second] -> dget (var w) v = Some (or0 (d w))).
Lemma line_fields fd d : line_says fd d -> exists v, fields fd fd vars0 = Ok v /\ agree v d /\
  (forall t, In ("U", Some t) fd -> dget "week_of_year_start" v = Some 6) /\
  (forall t, In ("W", Some t) fd -> dget "week_of_year_start" v = Some 0).
Proof.
  intros (ND & hf & HF & RD & ALL & UQ).
  destruct (fields_ok fd hf fd ND HF ltac:(auto) ND ltac:(intros k t I; destruct (RD k t I) as [? | (w & n & S & _)]; eauto) UQ vars0)
    as (v & E & A & B & C).
  exists v. split; [exact E |].
  assert (V : forall w, dget (var w) v = match d w with Some n => Some n | None => dget (var w) vars0 end).
  { intros w. destruct (d w) as [n |] eqn:D.
    - destruct (ALL w n D) as (k & t & I & S). eapply A; eauto.
    - apply B. intros k t n I S. destruct (RD k t I) as [SL | (w' & n' & S' & D')].
      + apply says_key in S. apply SL. destruct w; cbn [keys_of In] in *; tauto.
      + assert (w = w') by (eapply says_what; eauto). subst. congruence. }
  split; [split | split].
  - intros w N. rewrite V. destruct (d w); [reflexivity |]. destruct w; try reflexivity; exfalso; apply N; cbn; tauto.
  - intros w I. rewrite V. cbn [In] in I. destruct I as [<- | [<- | [<- | []]]]; cbn [or0]; destruct (d _); reflexivity.
  - intros t I. destruct (RD _ _ I) as [SL | (w & n & S & _)]; [exfalso; apply SL; cbn; tauto |].
    assert (w = Week) by (apply says_key in S; destruct w; try reflexivity; cbn [keys_of In] in S; decompose [or] S; discriminate || tauto). subst.
    now rewrite (C _ _ _ I S).
  - intros t I. destruct (RD _ _ I) as [SL | (w & n & S & _)]; [exfalso; apply SL; cbn; tauto |].
    assert (w = Week) by (apply says_key in S; destruct w; try reflexivity; cbn [keys_of In] in S; decompose [or] S; discriminate || tauto). subst.
    now rewrite (C _ _ _ I S).
Qed.
