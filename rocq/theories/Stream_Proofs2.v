(** Proofs about the commands of one jail: what the server is told. *)
From Verif Require Import Base Text Backtrack Options_Model Options_Spec Options_Proofs Options_Proofs2 Stream_Model Stream_Spec Stream_Proofs.
Require Import ZifyBool ZifyNat.
Local Open Scope string_scope.
Local Open Scope list_scope.

Definition opt_list {A} (x : option A) : list A := match x with Some a => [a] | None => [] end.
Lemma flat_flat_map {A B} (f : cmd -> list B) (g : A -> list cmd) l : flat f (flat_map g l) = flat_map (fun x => flat f (g x)) l.
Proof. induction l as [|x l IH]; [reflexivity|]. cbn [flat_map]. now rewrite flat_app, IH. Qed.
Lemma flat_map_none {A B} (g : A -> list B) l : (forall x, In x l -> g x = []) -> flat_map g l = [].
Proof. induction l as [|x l IH]; intros H; [reflexivity|]. cbn. rewrite H by now left. apply IH. intros y I. apply H. now right. Qed.
Lemma flat_map_ext_in' {A B} (g h : A -> list B) l : (forall x, In x l -> g x = h x) -> flat_map g l = flat_map h l.
Proof. induction l as [|x l IH]; intros H; [reflexivity|]. cbn. rewrite H by now left. f_equal. apply IH. intros y I. apply H. now right. Qed.
Lemma dict_single {A} (k : text) (g : text * val -> list A) (o : opts) : dwf o -> (forall k' v, In (k', v) o -> k' <> k -> g (k', v) = []) ->
  flat_map g o = match dget k o with Some v => g (k, v) | None => [] end.
Proof.
  intros W H. induction o as [|[k' v] o IH]; [reflexivity|]. unfold dwf in W. cbn [dkeys map fst] in W. apply NoDup_cons_iff in W as [N W].
  cbn [flat_map dget]. destruct (eqb_spec k k') as [<-|D].
  - rewrite flat_map_none; [apply app_nil_r|]. intros [k1 v1] I. apply H; [now right|]. intros ->. apply N. apply (in_map fst) in I. exact I.
  - rewrite H; [|now left|congruence]. cbn [app]. apply IH; [exact W|]. intros k1 v1 I. apply H. now right.
Qed.

Section WithEnv.
Context (E : env) (name : text).
Notation ups := (ups name). Notation prios := (prios name). Notation rest1 := (rest1 E name). Notation rests := (rests E name).
Notation others := (others name).

Lemma ups_told {A} (f : cmd -> list A) o : dwf o ->
  flat f (ups o) = match set_value (dget (tx "usedns") o) with Some v => f (set_cmd name (tx "usedns") v) | None => [] end.
Proof.
  intros W. induction o as [|[k v] o IH]; [reflexivity|]. unfold dwf in W. cbn [dkeys map fst] in W. apply NoDup_cons_iff in W as [N W].
  cbn [Stream_Proofs.ups]. rewrite flat_app, (IH W). cbn [dget]. rewrite (eqb_sym (tx "usedns") k). destruct (eqb_spec k (tx "usedns")) as [->|D].
  - assert (dget (tx "usedns") o = None) as -> by now apply dget_None. cbn [set_value app]. destruct v; cbn [is_none negb andb]; unfold flat; cbn; now rewrite ?app_nil_r.
  - rewrite andb_false_r. apply app_nil_r.
Qed.
Lemma prios_told {A} (f : cmd -> list A) o :
  flat f (prios o) = flat_map (fun kv => if negb (is_none (snd kv)) && inb (fst kv) [tx "maxlines"; tx "prefregex"] then f (set_cmd name (fst kv) (snd kv)) else []) o.
Proof.
  unfold Stream_Proofs.prios. rewrite flat_flat_map. apply flat_map_ext. intros kv. destruct (_ && _); [|reflexivity]. unfold flat. cbn. apply app_nil_r.
Qed.
Lemma rests_told {A} (f : cmd -> list A) o r : rests o = Some r ->
  flat f r = flat_map (fun kv => match rest1 kv with Some l => flat f l | None => [] end) o.
Proof.
  revert r. induction o as [|kv o IH]; intros r H; cbn [Stream_Proofs.rests] in H; [injection H as <-; reflexivity|].
  cbn [flat_map]. destruct (rest1 kv) as [a|]; [|discriminate]. destruct (rests o) as [b|]; [|discriminate]. injection H as <-. rewrite flat_app. f_equal. now apply IH.
Qed.

(** *** settings *)
Lemma values_one k k' v : told_values k [set_cmd name k' v] = if eqb k' k then [v] else [].
Proof. unfold told_values, flat. cbn. destruct (eqb k' k); [reflexivity|reflexivity]. Qed.
Lemma ups_values k o : dwf o -> told_values k (ups o) = if eqb k (tx "usedns") then opt_list (set_value (dget k o)) else [].
Proof.
  intros W. unfold told_values. rewrite ups_told by exact W. rewrite (eqb_sym k). destruct (eqb_spec (tx "usedns") k) as [<-|D].
  - destruct (set_value (dget (tx "usedns") o)); reflexivity.
  - destruct (set_value (dget (tx "usedns") o)); [|reflexivity]. cbn [set_cmd]. destruct (eqb_spec (tx "usedns") k); [contradiction|reflexivity].
Qed.
Lemma prios_values k o : dwf o -> told_values k (prios o) = if inb k [tx "maxlines"; tx "prefregex"] then opt_list (set_value (dget k o)) else [].
Proof.
  intros W. unfold told_values. rewrite prios_told. rewrite (dict_single k); [|exact W|].
  - destruct (dget k o) as [v|]; [|now destruct (inb k _)]. cbn [fst snd set_cmd]. rewrite eqb_refl. destruct (inb k _); [|now rewrite andb_false_r]. destruct v; reflexivity.
  - intros k' v _ D. cbn [fst snd set_cmd]. destruct (eqb_spec k' k); [contradiction|]. now destruct (_ && _).
Qed.
Definition no_add (k : text) : Prop := starts_with (tx "add") k = false.
Lemma add_starts s : starts_with (tx "add") (tx "add" ++ s) = true.
Proof. destruct s; reflexivity. Qed.
Lemma journal_key l r : journal_cmds E name l = Some r -> Forall (fun c => key_of c = Some (tx "addjournalmatch")) r.
Proof.
  revert r. induction l as [|m l IH]; intros r H; cbn in H; [injection H as <-; constructor|]. destruct (nonempty m); [|now apply IH].
  destruct (e_shlex E m); [|discriminate]. destruct (journal_cmds E name l) as [r'|]; [|discriminate]. injection H as <-. constructor; [reflexivity|]. now apply IH.
Qed.
Lemma rest1_keys k v l : rest1 (k, v) = Some l -> Forall (fun c => key_of c = Some (tx "add" ++ k) /\ (k = tx "failregex" \/ k = tx "ignoreregex")
   \/ c = set_cmd name k v /\ substring k (tx "datepattern") = true /\ v <> VNone
   \/ key_of c = Some (tx "addjournalmatch") /\ k = tx "journalmatch") l.
Proof.
  unfold Stream_Proofs.rest1. intros H. destruct (is_none v) eqn:Ev; [destruct v; try discriminate; injection H as <-; constructor|].
  assert (Nv : v <> VNone) by (intros ->; discriminate).
  destruct (inb k [tx "failregex"; tx "ignoreregex"]) eqn:E1.
  - assert (K : k = tx "failregex" \/ k = tx "ignoreregex") by (apply inb_In in E1 as [<-|[<-|[]]]; auto).
    destruct v as [| | |t]; try discriminate. injection H as <-. destruct (filter nonempty (split newline t)) as [|x [|y m]]; [constructor|constructor; [left; split; [reflexivity|exact K]|constructor]..].
  - assert (H' : (if inb k [tx "usedns"; tx "maxlines"; tx "prefregex"] then Some [] else if substring k (tx "datepattern") then Some [set_cmd name k v]
        else if eqb k (tx "journalmatch") then match v with VText t => journal_cmds E name (split newline t) | _ => None end else Some []) = Some l).
    { destruct v; [discriminate| | |]; exact H. }
    clear H. destruct (inb k [tx "usedns"; tx "maxlines"; tx "prefregex"]); [injection H' as <-; constructor|]. destruct (substring k (tx "datepattern")) eqn:E3.
    + injection H' as <-. constructor; [|constructor]. right. left. auto.
    + destruct (eqb_spec k (tx "journalmatch")) as [->|D].
      * destruct v; try discriminate. apply journal_key in H'. eapply Forall_impl; [|exact H']. cbn beta. intros c Hc. right. right. auto.
      * injection H' as <-. constructor.
Qed.
Lemma rests_values k o r : dwf o -> no_add k -> rests o = Some r ->
  told_values k r = if substring k (tx "datepattern") then opt_list (set_value (dget k o)) else [].
Proof.
  intros W A H. unfold told_values. rewrite (rests_told _ o r H). rewrite (dict_single k); [|exact W|].
  - destruct (dget k o) as [v|]; [|now destruct (substring k (tx "datepattern"))]. destruct (is_none v) eqn:Ev; [destruct v; try discriminate; cbn [Stream_Proofs.rest1 set_value opt_list]; now destruct (substring k (tx "datepattern"))|].
    destruct (substring k (tx "datepattern")) eqn:Es.
    + assert (R : rest1 (k, v) = Some [set_cmd name k v]).
      { unfold Stream_Proofs.rest1. assert (inb k [tx "failregex"; tx "ignoreregex"] = false) as ->.
        { apply inb_false. intros [<-|[<-|[]]]; vm_compute in Es; discriminate. }
        assert (inb k [tx "usedns"; tx "maxlines"; tx "prefregex"] = false) as ->.
        { apply inb_false. intros [<-|[<-|[<-|[]]]]; vm_compute in Es; discriminate. }
        rewrite Es. destruct v; [discriminate| | |]; reflexivity. }
      rewrite R. change (told_values k [set_cmd name k v] = opt_list (set_value (Some v))). rewrite values_one, eqb_refl. destruct v; [discriminate| | |]; reflexivity.
    + destruct (rest1 (k, v)) as [l|] eqn:R; [|reflexivity]. apply values_without. apply rest1_keys in R. eapply Forall_impl; [|exact R]. cbn beta.
      intros c [[Hc _]|[[_ [Hc _]]|[Hc _]]]; [| congruence |]; rewrite Hc; intros Q; apply (f_equal (fun x => match x with Some y => y | None => k end)) in Q; cbv beta iota in Q.
      { apply (f_equal (@length _)) in Q. rewrite app_length in Q. cbn in Q. lia. }
      { rewrite <- Q in A. discriminate. }
  - intros k' v _ D. destruct (rest1 (k', v)) as [l|] eqn:R; [|reflexivity]. apply values_without. apply rest1_keys in R. eapply Forall_impl; [|exact R]. cbn beta.
    intros c [[Hc _]|[[-> _]|[Hc _]]]; [rewrite Hc|cbn; congruence|rewrite Hc]; intros Q; apply (f_equal (fun x => match x with Some y => y | None => k end)) in Q; cbv beta iota in Q;
      unfold no_add in A; rewrite <- Q in A; [now rewrite add_starts in A|discriminate].
Qed.
Lemma others_values k o : dwf o -> no_add k ->
  told_values k (others o) = if eqb k (tx "logpath") || eqb k (tx "ignoreip") || inb k ignore_opts then [] else opt_list (dget k o).
Proof.
  intros W A. unfold told_values, Stream_Proofs.others. rewrite flat_flat_map. rewrite (dict_single k); [|exact W|].
  - destruct (dget k o) as [v|]; [|now destruct (_ || _)]. destruct (eqb k (tx "logpath")); [reflexivity|]. cbn [orb]. destruct (eqb k (tx "ignoreip")).
    + cbn [orb]. apply values_without. constructor; [|constructor]. cbn. intros [= <-]. discriminate.
    + cbn [orb]. destruct (inb k ignore_opts); [reflexivity|]. cbn [opt_list]. change (told_values k [set_cmd name k v] = [v]). now rewrite values_one, eqb_refl.
  - intros k' v _ D. destruct (eqb k' (tx "logpath")); [reflexivity|]. destruct (eqb k' (tx "ignoreip")).
    + apply values_without. constructor; [|constructor]. cbn. intros [= <-]. discriminate.
    + destruct (inb k' ignore_opts); [reflexivity|]. change (told_values k [set_cmd name k' v] = []). rewrite values_one. destruct (eqb_spec k' k); [contradiction|reflexivity].
Qed.

(** *** keys of the blocks *)
Lemma path_key l : Forall (fun c => key_of c = Some (tx "addlogpath")) (path_cmds E name l).
Proof. unfold path_cmds. destruct (match rsplit l with Some x => x | None => _ end) as [p t]. apply Forall_forall. intros c I. apply in_map_iff in I as (f & <- & _). reflexivity. Qed.
Lemma plogs_key J o : Forall (fun c => key_of c = Some (tx "addlogpath")) (plogs E name J o).
Proof.
  apply Forall_forall. intros c I. apply in_flat_map in I as ([k v] & _ & I). destruct (_ && _); [|contradiction].
  apply in_flat_map in I as (l & _ & I). pose proof (path_key l) as F. rewrite Forall_forall in F. now apply F.
Qed.
Lemma act_keys l s : actions_convert E name l = Some s -> Forall (fun c => key_of c = Some (tx "addaction") \/ key_of c = Some (tx "action")) s.
Proof.
  revert s. induction l as [|a l IH]; intros s H; cbn [actions_convert] in H; [injection H as <-; constructor|].
  destruct (match a with APython n p js => _ | ACommand a => _ end) as [x|] eqn:X; [|discriminate]. destruct (actions_convert E name l) as [r|]; [|discriminate].
  injection H as <-. apply Forall_app. split; [|now apply IH]. destruct a as [n p js|a].
  - injection X as <-. constructor; [now left|constructor].
  - unfold action_convert in X. destruct (get_combined _ _ _ _ _) as [o|]; [|discriminate]. injection X as <-.
    constructor; [now left|]. destruct (action_multi o (a_init a)) as [|[k v] [|kv m]]; [constructor|constructor; [now right|constructor]|constructor; [now right|constructor]].
Qed.
Lemma ups_key o : Forall (fun c => key_of c = Some (tx "usedns")) (ups o).
Proof.
  induction o as [|[k v] o IH]; [constructor|]. cbn [Stream_Proofs.ups]. apply Forall_app. split; [exact IH|].
  destruct (eqb_spec k (tx "usedns")) as [->|]; rewrite ?andb_false_r; [|constructor]. destruct (negb _ && _); constructor; [reflexivity|constructor].
Qed.
Lemma prios_key o : Forall (fun c => key_of c = Some (tx "maxlines") \/ key_of c = Some (tx "prefregex")) (prios o).
Proof.
  apply Forall_forall. intros c I. apply in_flat_map in I as ([k v] & _ & I). cbn [fst snd] in I. destruct (_ && _) eqn:B; [|contradiction]. destruct I as [<-|[]].
  apply andb_true_iff in B as [_ B]. apply inb_In in B as [<-|[<-|[]]]; [now left|now right].
Qed.
Lemma rests_key o r : rests o = Some r -> Forall (fun c => key_of c = Some (tx "addfailregex") \/ key_of c = Some (tx "addignoreregex") \/ key_of c = Some (tx "addjournalmatch")
   \/ exists k v, c = set_cmd name k v /\ In k (dkeys o) /\ substring k (tx "datepattern") = true) r.
Proof.
  revert r. induction o as [|[k v] o IH]; intros r H; cbn [Stream_Proofs.rests] in H; [injection H as <-; constructor|].
  destruct (rest1 (k, v)) as [a|] eqn:R; [|discriminate]. destruct (rests o) as [b|]; [|discriminate]. injection H as <-. apply Forall_app. split.
  - apply rest1_keys in R. eapply Forall_impl; [|exact R]. cbn beta. intros c [[Hc [-> | ->]]|[[-> [Hs _]]|[Hc _]]].
    + now left.
    + right. now left.
    + right. right. right. exists k, v. split; [reflexivity|]. split; [now left|exact Hs].
    + right. right. now left.
  - eapply Forall_impl; [|apply IH; reflexivity]. cbn beta. intros c [H|[H|[H|(k' & v' & H1 & H2 & H3)]]]; auto. right. right. right. exists k', v'. split; [exact H1|]. split; [now right|exact H3].
Qed.
Lemma others_key o : Forall (fun c => key_of c = Some (tx "addignoreip") \/ exists k v, c = set_cmd name k v /\ In k (dkeys o) /\ k <> tx "logpath" /\ k <> tx "ignoreip" /\ ~ In k ignore_opts) (others o).
Proof.
  apply Forall_forall. intros c I. apply in_flat_map in I as ([k v] & Ik & I). destruct (eqb_spec k (tx "logpath")) as [_|N1]; [contradiction|].
  destruct (eqb_spec k (tx "ignoreip")) as [_|N2]; [destruct I as [<-|[]]; now left|]. destruct (inb k ignore_opts) eqn:B; [contradiction|]. destruct I as [<-|[]].
  right. exists k, v. split; [reflexivity|]. split; [now apply (in_map fst) in Ik|]. apply inb_false in B. auto.
Qed.

(** *** regular expressions *)
Lemma lines_nonempty t : filter nonempty (split newline t) = lines_of (Some (VText t)).
Proof.
  unfold lines_of. change nl with newline. induction (split newline t) as [|l r IH]; [reflexivity|]. cbn [filter]. rewrite IH. destruct l; reflexivity.
Qed.
Lemma rests_added k o r : k = tx "failregex" \/ k = tx "ignoreregex" -> dwf o -> rests o = Some r ->
  told_added (tx "add" ++ k) r = lines_of (dget k o).
Proof.
  intros K W H. unfold told_added. rewrite (rests_told _ o r H). rewrite (dict_single k); [|exact W|].
  - destruct (dget k o) as [v|] eqn:D; [|reflexivity].
    assert (R : exists l, rest1 (k, v) = Some l). { clear - H D. revert r H. induction o as [|[k' v'] o IH]; [discriminate|]. intros r H. cbn [Stream_Proofs.rests] in H. cbn [dget] in D.
      destruct (rest1 (k', v')) as [a|] eqn:R; [|discriminate]. destruct (rests o) as [b|]; [|discriminate]. destruct (eqb_spec k k') as [->|N]; [injection D as ->; eauto|]. now apply (IH D b). }
    destruct R as (l & R). rewrite R. unfold Stream_Proofs.rest1 in R. assert (B : inb k [tx "failregex"; tx "ignoreregex"] = true) by (destruct K as [-> | ->]; reflexivity). rewrite B in R.
    destruct v as [| | |t]; try discriminate; [injection R as <-; reflexivity|]. injection R as <-. rewrite <- lines_nonempty.
    destruct (filter nonempty (split newline t)) as [|x [|y m]]; [reflexivity| |]; unfold flat; cbn -[app eqb tx]; rewrite eqb_refl; cbn; now rewrite ?app_nil_r.
  - intros k' v _ D. destruct (rest1 (k', v)) as [l|] eqn:R; [|reflexivity]. apply added_without. apply rest1_keys in R. eapply Forall_impl; [|exact R]. cbn beta.
    intros c [[Hc [-> | ->]]|[[-> [Hs _]]|[Hc ->]]]; try rewrite Hc.
    + destruct K as [-> | ->]; [contradiction|discriminate].
    + destruct K as [-> | ->]; [discriminate|contradiction].
    + cbn. intros [= ->]. destruct K as [-> | ->]; vm_compute in Hs; discriminate.
    + destruct K as [-> | ->]; discriminate.
Qed.
Lemma journal_words l r : journal_cmds E name l = Some r ->
  Forall2 (fun m ws => exists xs, e_shlex E m = Some xs /\ ws = map VText xs) (filter some_text l) (told_words (tx "addjournalmatch") r).
Proof.
  revert r. induction l as [|m l IH]; intros r H; cbn [journal_cmds] in H; [injection H as <-; constructor|]. cbn [filter].
  change (some_text m) with (nonempty m). destruct (nonempty m); [|now apply IH].
  destruct (e_shlex E m) as [ws|] eqn:Ws; [|discriminate]. destruct (journal_cmds E name l) as [r'|] eqn:J; [|discriminate]. injection H as <-.
  unfold told_words, flat. cbn [map concat]. rewrite eqb_refl. cbn [app]. constructor; [eauto|]. now apply IH.
Qed.
Lemma rests_journal o r : dwf o -> rests o = Some r ->
  Forall2 (fun m ws => exists xs, e_shlex E m = Some xs /\ ws = map VText xs) (lines_of (dget (tx "journalmatch") o)) (told_words (tx "addjournalmatch") r).
Proof.
  intros W H. unfold told_words. rewrite (rests_told _ o r H). rewrite (dict_single (tx "journalmatch")); [|exact W|].
  - destruct (dget (tx "journalmatch") o) as [v|] eqn:D; [|constructor].
    destruct (rest1 (tx "journalmatch", v)) as [l|] eqn:R.
    + destruct v as [| | |t]; try discriminate; [injection R as <-; constructor|]. cbn in R. exact (journal_words _ _ R).
    + exfalso. clear - H D R. revert r H. induction o as [|[k' v'] o IH]; [discriminate|]. intros r H. cbn [Stream_Proofs.rests] in H. cbn [dget] in D.
      destruct (rest1 (k', v')) as [a|] eqn:R1; [|discriminate]. destruct (rests o) as [b|]; [|discriminate].
      destruct (eqb_spec (tx "journalmatch") k') as [<-|N]; [injection D as ->; congruence|]. now apply (IH D b).
  - intros k' v _ D. destruct (rest1 (k', v)) as [l|] eqn:R; [|reflexivity]. apply (words_without (tx "addjournalmatch") l). apply rest1_keys in R. eapply Forall_impl; [|exact R]. cbn beta.
    intros c [[Hc [-> | ->]]|[[-> [Hs _]]|[Hc ->]]]; try rewrite Hc; try discriminate; try contradiction.
    cbn. intros [= ->]. vm_compute in Hs. discriminate.
Qed.
End WithEnv.
