(** Proofs about the commands of one jail. *)
From Verif Require Import Base Text Backtrack Options_Model Options_Spec Options_Proofs Options_Proofs2 Stream_Model Stream_Spec.
Require Import ZifyBool ZifyNat.
Local Open Scope string_scope.
Local Open Scope list_scope.

(** ** Keys of commands *)
Definition without (k : text) (s : list cmd) : Prop := Forall (fun c => key_of c <> Some k) s.
Lemma without_app k a b : without k (a ++ b) <-> without k a /\ without k b.
Proof. apply Forall_app. Qed.
Lemma flat_app {A} (f : cmd -> list A) a b : flat f (a ++ b) = flat f a ++ flat f b.
Proof. unfold flat. now rewrite map_app, concat_app. Qed.
Lemma flat_none {A} (f : cmd -> list A) s : Forall (fun c => f c = []) s -> flat f s = [].
Proof. induction 1 as [|c s H _ IH]; [reflexivity|]. unfold flat in *. cbn. now rewrite H. Qed.
Lemma neq_eqb (a b : text) : Some a <> Some b -> eqb a b = false.
Proof. intros H. destruct (eqb_spec a b); [congruence|reflexivity]. Qed.

Ltac keyless H := cbn [key_of] in H; try rewrite (neq_eqb _ _ H); try reflexivity.
Lemma added_without k s : without k s -> told_added k s = [].
Proof.
  intros W. apply flat_none. eapply Forall_impl; [|exact W]. cbn beta. intros c H.
  destruct c as [| j [|[| | |o] [|[| | |r] [|? ?]]] | j o l| | |]; keyless H.
Qed.
Lemma values_without k s : without k s -> told_values k s = [].
Proof.
  intros W. apply flat_none. eapply Forall_impl; [|exact W]. cbn beta. intros c H.
  destruct c as [| j [|[| | |o] [|v [|? ?]]] | j o l| | |]; keyless H.
Qed.
Lemma logs_without s : without (tx "addlogpath") s -> told_logs s = [].
Proof.
  intros W. apply flat_none. eapply Forall_impl; [|exact W]. cbn beta. intros c H.
  destruct c as [| j [|[| | |o] [|[| | |p] [|[| | |t] [|? ?]]]] | j o l| | |]; keyless H.
Qed.
Lemma words_without k s : without k s -> told_words k s = [].
Proof.
  intros W. apply flat_none. eapply Forall_impl; [|exact W]. cbn beta. intros c H.
  destruct c as [| j [|[| | |o] l] | j o l| | |]; keyless H.
Qed.
Lemma action_options_without n s : without (tx "action") s -> told_action_options n s = [].
Proof.
  intros W. apply flat_none. eapply Forall_impl; [|exact W]. cbn beta. intros c H.
  destruct c as [| j [|[| | |o] [|[| | |a] [|[| | |k] [|v [|? ?]]]]] | j o l| j a l| |]; keyless H. now contradict H.
Qed.

(** ** _fillStream *)
Section WithEnv.
Context (E : env) (name : text).

Definition is_none (v : val) : bool := match v with VNone => true | _ => false end.
Fixpoint ups (o : list (text * val)) : list cmd :=
  match o with
  | [] => []
  | (k, v) :: o => ups o ++ (if negb (is_none v) && eqb k (tx "usedns") then [set_cmd name k v] else [])
  end.
Definition prios (o : list (text * val)) : list cmd :=
  flat_map (fun kv => if negb (is_none (snd kv)) && inb (fst kv) [tx "maxlines"; tx "prefregex"] then [set_cmd name (fst kv) (snd kv)] else []) o.
Definition rest1 (kv : text * val) : option (list cmd) :=
  let '(opt, value) := kv in
  match value with
  | VNone => Some []
  | _ =>
      if inb opt [tx "failregex"; tx "ignoreregex"] then
        match value with
        | VText t => Some match filter nonempty (split newline t) with
                          | [] => []
                          | [r] => [set_cmd name (tx "add" ++ opt) (VText r)]
                          | l => [CMulti name (tx "add" ++ opt) l]
                          end
        | _ => None
        end
      else if inb opt [tx "usedns"; tx "maxlines"; tx "prefregex"] then Some []
      else if substring opt (tx "datepattern") then Some [set_cmd name opt value]
      else if eqb opt (tx "journalmatch") then match value with VText t => journal_cmds E name (split newline t) | _ => None end
      else Some []
  end.
Fixpoint rests (o : list (text * val)) : option (list cmd) :=
  match o with
  | [] => Some []
  | kv :: o => match rest1 kv, rests o with Some a, Some b => Some (a ++ b) | _, _ => None end
  end.

Lemma insert_app pre x post : insert_at (length pre) x (pre ++ post) = pre ++ x :: post.
Proof. unfold insert_at. rewrite firstn_app, skipn_app, firstn_all, skipn_all, Nat.sub_diag. cbn. now rewrite app_nil_r. Qed.

Lemma fill_gen : forall o pre post, fill_stream E name o (pre ++ post) (length pre)
  = match rests o with Some r => Some (ups o ++ pre ++ prios o ++ post ++ r) | None => None end.
Proof.
  induction o as [|[k v] o IH]; intros pre post; [cbn; now rewrite app_nil_r|].
  assert (Done : forall r1, fill_stream E name o ((pre ++ post) ++ r1) (length pre)
    = match rests o with Some b => Some (ups o ++ pre ++ prios o ++ post ++ r1 ++ b) | None => None end).
  { intros r1. rewrite <- app_assoc, IH. destruct (rests o); [|reflexivity]. now rewrite <- app_assoc. }
  cbn [fill_stream rests ups]. unfold prios. cbn [flat_map fst snd]. fold (prios o). destruct (is_none v) eqn:Ev.
  - destruct v; try discriminate. cbn [rest1 negb andb app]. rewrite app_nil_r, IH. destruct (rests o); reflexivity.
  - cbn [negb andb]. destruct (inb k [tx "failregex"; tx "ignoreregex"]) eqn:E1.
    + assert (eqb k (tx "usedns") = false /\ inb k [tx "maxlines"; tx "prefregex"] = false) as [-> ->].
      { apply inb_In in E1 as [<-|[<-|[]]]; split; reflexivity. }
      cbn [app]. rewrite app_nil_r. unfold rest1. rewrite E1. destruct v; try discriminate; try reflexivity. cbn zeta. rewrite Done. destruct (filter nonempty (split newline t)) as [|x [|y l]]; destruct (rests o); reflexivity.
    + destruct (inb k [tx "usedns"; tx "maxlines"; tx "prefregex"]) eqn:E2.
      * assert (R : rest1 (k, v) = Some []) by (unfold rest1; rewrite E1, E2; destruct v; reflexivity). rewrite R.
        assert (M : match v with VNone => fill_stream E name o (pre ++ post) (length pre) | _ =>
                     fill_stream E name o (insert_at (if eqb k (tx "usedns") then 0%nat else length pre) (set_cmd name k v) (pre ++ post)) (S (length pre)) end
                    = fill_stream E name o (insert_at (if eqb k (tx "usedns") then 0%nat else length pre) (set_cmd name k v) (pre ++ post)) (S (length pre)))
          by (destruct v; [discriminate| | |]; reflexivity). 
        transitivity (fill_stream E name o (insert_at (if eqb k (tx "usedns") then 0%nat else length pre) (set_cmd name k v) (pre ++ post)) (S (length pre)));
          [destruct v; [discriminate| | |]; reflexivity|]. clear M.
        destruct (eqb_spec k (tx "usedns")) as [->|N].
        -- assert (inb (tx "usedns") [tx "maxlines"; tx "prefregex"] = false) as -> by reflexivity.
           change (insert_at 0 (set_cmd name (tx "usedns") v) (pre ++ post)) with ((set_cmd name (tx "usedns") v :: pre) ++ post).
           change (S (length pre)) with (length (set_cmd name (tx "usedns") v :: pre)). rewrite IH. destruct (rests o); [|reflexivity]. now rewrite <- !app_assoc.
        -- assert (inb k [tx "maxlines"; tx "prefregex"] = true) as ->.
           { apply inb_In in E2 as [<-|E2]; [now contradict N|]. now apply inb_In. }
           rewrite insert_app. cbn [app]. rewrite app_nil_r.
           assert (L : S (length pre) = length (pre ++ [set_cmd name k v])) by (rewrite app_length; cbn; lia). rewrite L.
           change (pre ++ set_cmd name k v :: post) with (pre ++ [set_cmd name k v] ++ post). rewrite app_assoc, IH. destruct (rests o); [|reflexivity]. now rewrite <- !app_assoc.
      * assert (eqb k (tx "usedns") = false /\ inb k [tx "maxlines"; tx "prefregex"] = false) as [-> ->].
        { apply inb_false in E2. split; [destruct (eqb_spec k (tx "usedns")) as [->|]; [|reflexivity]; contradict E2; now left|].
          apply inb_false. intros I. apply E2. now right. }
        cbn [app]. rewrite app_nil_r. unfold rest1. rewrite E1, E2. destruct (substring k (tx "datepattern")).
        -- rewrite Done. destruct v; [discriminate| | |]; destruct (rests o); reflexivity.
        -- destruct (eqb k (tx "journalmatch")).
           ++ destruct v as [| | |t]; try discriminate; try reflexivity. destruct (journal_cmds E name (split newline t)) as [l|]; [|reflexivity].
              rewrite Done. destruct (rests o); reflexivity.
           ++ rewrite <- (app_nil_r (pre ++ post)), Done. destruct v; [discriminate| | |]; destruct (rests o); reflexivity.
Qed.
Lemma fill_eq o stream : fill_stream E name o stream 0
  = match rests o with Some r => Some (ups o ++ prios o ++ stream ++ r) | None => None end.
Proof. exact (fill_gen o [] stream). Qed.

(** ** The loop over the options of the jail *)
Definition others (o : list (text * val)) : list cmd :=
  flat_map (fun kv => let '(opt, value) := kv in
    if eqb opt (tx "logpath") then []
    else if eqb opt (tx "ignoreip") then [CSet name (VText (tx "addignoreip") :: map VText (splitwords (text_of value) false))]
    else if inb opt ignore_opts then []
    else [set_cmd name opt value]) o.
Definition backend_of (J : opts) : val := match dget (tx "backend") J with Some b => b | None => VText (tx "auto") end.
Definition systemd (J : opts) : bool := starts_with (tx "systemd") (text_of (backend_of J)).
Definition plogs (J : opts) (o : list (text * val)) : list cmd :=
  flat_map (fun kv => let '(opt, value) := kv in
    if eqb opt (tx "logpath") && negb (systemd J) then flat_map (path_cmds E name) (split newline (text_of value)) else []) o.
Lemma loop_ok J allow : forall o s s2 a b, jail_loop E name J allow o s s2 = LOk a b -> a = s ++ others o /\ b = s2 ++ plogs J o.
Proof.
  induction o as [|[k v] o IH]; intros s s2 a b H; cbn [jail_loop] in H.
  - injection H as <- <-. now rewrite !app_nil_r.
  - unfold others, plogs. cbn [flat_map]. fold (others o) (plogs J o). fold (backend_of J) in H. fold (systemd J) in H. destruct (eqb k (tx "logpath")) eqn:E1.
    + cbn [andb app]. destruct (systemd J); [now apply IH|]. cbn [negb]. destruct v as [| | |t]; try discriminate. cbn [text_of].
      destruct (flat_map (path_cmds E name) (split newline t)) as [|c l] eqn:F.
      * destruct (negb allow && negb _); [discriminate|]. destruct (truthy _); [discriminate|]. now apply IH.
      * apply IH in H as [-> ->]. split; [reflexivity|]. now rewrite <- app_assoc.
    + cbn [andb app]. destruct (eqb k (tx "ignoreip")); [|destruct (inb k ignore_opts)].
      * apply IH in H as [-> ->]. split; [now rewrite <- app_assoc|reflexivity].
      * apply IH in H as [-> ->]. split; reflexivity.
      * apply IH in H as [-> ->]. split; [now rewrite <- app_assoc|reflexivity].
Qed.
End WithEnv.
