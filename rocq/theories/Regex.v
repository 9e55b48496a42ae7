(** Regular expressions as used by the code through Python's [re] (no line of /repo): whether a
    whole text matches.  Written with derivatives; [lang] is the textbook meaning. *)
From Verif Require Import Base Text.

Inductive re :=
| RNone | REps
| RChr (f : ascii -> bool)
| RAlt (a b : re)
| RCat (a b : re)
| RStar (a : re).

Fixpoint nullable (r : re) : bool :=
  match r with
  | RNone | RChr _ => false
  | REps | RStar _ => true
  | RAlt a b => nullable a || nullable b
  | RCat a b => nullable a && nullable b
  end.
Fixpoint deriv (c : ascii) (r : re) : re :=
  match r with
  | RNone | REps => RNone
  | RChr f => if f c then REps else RNone
  | RAlt a b => RAlt (deriv c a) (deriv c b)
  | RCat a b => if nullable a then RAlt (RCat (deriv c a) b) (deriv c b) else RCat (deriv c a) b
  | RStar a => RCat (deriv c a) (RStar a)
  end.
Definition matches (r : re) (s : text) : bool := nullable (fold_left (fun r c => deriv c r) s r).

Definition ropt (r : re) : re := RAlt r REps.
Definition rplus (r : re) : re := RCat r (RStar r).
(** r{0,m} *)
Fixpoint rupto (m : nat) (r : re) : re :=
  match m with
  | O => REps
  | S m => ropt (RCat r (rupto m r))
  end.
(** r{n,n+m} *)
Fixpoint rrep (n m : nat) (r : re) : re :=
  match n with
  | S n => RCat r (rrep n m r)
  | O => rupto m r
  end.
Definition rchar (c : ascii) : re := RChr (eqb c).
Definition rlit (s : text) : re := fold_right (fun c r => RCat (rchar c) r) REps s.
Definition rclass (s : text) : re := RChr (fun c => inb c s).

Inductive lang : re -> text -> Prop :=
| LEps : lang REps []
| LChr f c : f c = true -> lang (RChr f) [c]
| LAltL a b s : lang a s -> lang (RAlt a b) s
| LAltR a b s : lang b s -> lang (RAlt a b) s
| LCat a b s t : lang a s -> lang b t -> lang (RCat a b) (s ++ t)
| LStar0 a : lang (RStar a) []
| LStarS a s t : lang a s -> lang (RStar a) t -> lang (RStar a) (s ++ t).

Lemma nullable_lang r : nullable r = true <-> lang r [].
Proof.
  split.
  - induction r as [| | |a IHa b IHb|a IHa b IHb|a IHa]; cbn; intros H; try discriminate.
    + constructor.
    + apply orb_true_iff in H as [H|H]; [apply LAltL|apply LAltR]; auto.
    + apply andb_true_iff in H as [H1 H2]. change (@nil ascii) with (@nil ascii ++ []). constructor; auto.
    + constructor.
  - remember [] as s eqn:E. induction 1 as [|f c H|a b s L IH|a b s L IH|a b s t L1 IH1 L2 IH2|a|a s t L1 IH1 L2 IH2]; cbn; auto; try discriminate.
    + now rewrite IH.
    + rewrite IH by exact E. apply orb_true_r.
    + apply app_eq_nil in E as [-> ->]. now rewrite IH1, IH2.
Qed.

Lemma star_split a : forall s, lang (RStar a) s -> s = [] \/ exists c u v, s = c :: u ++ v /\ lang a (c :: u) /\ lang (RStar a) v.
Proof.
  intros s L. remember (RStar a) as r eqn:E. revert E.
  induction L as [|f c H|x y s L IH|x y s L IH|x y s t L1 IH1 L2 IH2|x|x s t L1 IH1 L2 IH2]; intros E; try discriminate; [now left|].
  injection E as ->. destruct s as [|c u].
  - cbn. now apply IH2.
  - right. exists c, u, t. auto.
Qed.

Lemma deriv_lang r c : forall s, lang (deriv c r) s <-> lang r (c :: s).
Proof.
  induction r as [| |f|a IHa b IHb|a IHa b IHb|a IHa]; intros s; cbn [deriv].
  - split; intros L; inversion L.
  - split; intros L; inversion L.
  - destruct (f c) eqn:E; split; intros L; inversion L; subst; try congruence; constructor; assumption.
  - split; intros L; inversion L; subst; [apply LAltL; now apply IHa|apply LAltR; now apply IHb|apply LAltL; now apply IHa|apply LAltR; now apply IHb].
  - assert (Cat : forall u, lang (RCat (deriv c a) b) u -> lang (RCat a b) (c :: u)).
    { intros u L. inversion L as [| | | |? ? s1 s2 L1 L2| |]; subst. apply IHa in L1. change (c :: s1 ++ s2) with ((c :: s1) ++ s2). now constructor. }
    assert (Inv : forall u, lang (RCat a b) (c :: u) -> lang (RCat (deriv c a) b) u \/ (lang a [] /\ lang b (c :: u))).
    { intros u L. inversion L as [| | | |? ? s1 s2 L1 L2 E1 E2| |]; subst.
      destruct s1 as [|d s1]; cbn in *; [right; subst; split; assumption|]. injection E2 as -> <-. left. constructor; [now apply IHa|assumption]. }
    destruct (nullable a) eqn:N.
    + split; intros L.
      * inversion L as [| |? ? ? L'|? ? ? L'| | |]; subst; [now apply Cat|]. apply IHb in L'. apply nullable_lang in N.
        change (c :: s) with ([] ++ c :: s). now constructor.
      * apply Inv in L as [L|[L1 L2]]; [now apply LAltL|]. apply LAltR. now apply IHb.
    + split; intros L; [now apply Cat|]. apply Inv in L as [L|[L1 L2]]; [exact L|]. apply nullable_lang in L1. congruence.
  - split; intros L.
    + inversion L as [| | | |? ? s1 s2 L1 L2| |]; subst. apply IHa in L1. change (c :: s1 ++ s2) with ((c :: s1) ++ s2). now constructor.
    + apply star_split in L as [L|(d & u & v & E & L1 & L2)]; [discriminate|]. injection E as <- ->. constructor; [now apply IHa|assumption].
Qed.

Theorem matches_lang r s : matches r s = true <-> lang r s.
Proof.
  unfold matches. revert r. induction s as [|c s IH]; intros r; cbn; [apply nullable_lang|]. rewrite IH. apply deriv_lang.
Qed.

Lemma lang_ropt r s : lang (ropt r) s <-> s = [] \/ lang r s.
Proof.
  split.
  - intros L. inversion L as [| |? ? ? L'|? ? ? L'| | |]; subst; [auto|]. inversion L'. auto.
  - intros [->|L]; [apply LAltR; constructor|now apply LAltL].
Qed.
Lemma lang_chr f s : lang (RChr f) s <-> exists c, s = [c] /\ f c = true.
Proof. split; [intros L; inversion L; subst; eauto|intros (c & -> & E); now constructor]. Qed.
Lemma lang_rchar c s : lang (rchar c) s <-> s = [c].
Proof.
  unfold rchar. rewrite lang_chr. split; [intros (d & -> & E); apply eqb_true in E; congruence|]. intros ->. exists c. split; [reflexivity|apply eqb_refl].
Qed.
Lemma lang_cat a b s : lang (RCat a b) s <-> exists u v, s = u ++ v /\ lang a u /\ lang b v.
Proof. split; [intros L; inversion L; subst; eauto|intros (u & v & -> & L1 & L2); now constructor]. Qed.
Lemma lang_alt a b s : lang (RAlt a b) s <-> lang a s \/ lang b s.
Proof. split; [intros L; inversion L; auto|intros [L|L]; [now apply LAltL|now apply LAltR]]. Qed.

(** r{n,n+m}: between n and n+m pieces *)
Lemma lang_rrep r : forall n m s, lang (rrep n m r) s <->
  exists l, s = concat l /\ (n <= length l <= n + m)%nat /\ Forall (lang r) l.
Proof.
  induction n as [|n IHn].
  - induction m as [|m IHm]; intros s; cbn [rrep rupto] in *.
    + split; [intros L; inversion L; exists []; cbn; auto|]. intros (l & -> & H & _). destruct l; cbn in *; [constructor|lia].
    + rewrite lang_ropt, lang_cat. split.
      * intros [->|(u & v & -> & L1 & L2)]; [exists []; cbn; split; [reflexivity|]; split; [lia|constructor]|].
        apply IHm in L2 as (l & -> & H & F). exists (u :: l). cbn. split; [reflexivity|]. split; [lia|]. now constructor.
      * intros (l & -> & H & F). destruct l as [|u l]; [now left|]. right. inversion F; subst. exists u, (concat l). cbn. split; [reflexivity|].
        split; [assumption|]. apply IHm. exists l. cbn in H. split; [reflexivity|]. split; [lia|assumption].
  - intros m s. cbn [rrep]. rewrite lang_cat. split.
    + intros (u & v & -> & L1 & L2). apply IHn in L2 as (l & -> & H & F). exists (u :: l). cbn. split; [reflexivity|]. split; [lia|]. now constructor.
    + intros (l & -> & H & F). destruct l as [|u l]; [cbn in H; lia|]. inversion F; subst. exists u, (concat l). cbn in *. split; [reflexivity|].
      split; [assumption|]. apply IHn. exists l. split; [reflexivity|]. split; [lia|assumption].
Qed.
Lemma lang_star r s : lang (RStar r) s <-> exists l, s = concat l /\ Forall (lang r) l.
Proof.
  split.
  - intros L. remember (RStar r) as q eqn:E. revert E.
    induction L as [|f c H|x y s L IH|x y s L IH|x y s t L1 IH1 L2 IH2|x|x s t L1 IH1 L2 IH2]; intros E; try discriminate.
    + exists []. auto.
    + injection E as ->. destruct (IH2 eq_refl) as (l & -> & F). exists (s :: l). cbn. split; [reflexivity|now constructor].
  - intros (l & -> & F). induction F as [|u l Lu F IH]; cbn; [constructor|now constructor].
Qed.
Lemma lang_rplus_chr f s : lang (rplus (RChr f)) s <-> s <> [] /\ forallb f s = true.
Proof.
  unfold rplus. rewrite lang_cat. split.
  - intros (u & v & -> & L1 & L2). apply lang_chr in L1 as (c & -> & E). split; [discriminate|]. cbn. rewrite E. cbn.
    apply lang_star in L2 as (l & -> & F). induction F as [|w l Lw F IH]; cbn; [reflexivity|].
    apply lang_chr in Lw as (d & -> & E'). cbn. now rewrite E'.
  - intros [N H]. destruct s as [|c s]; [congruence|]. cbn in H. apply andb_true_iff in H as [H1 H2]. exists [c], s. split; [reflexivity|]. split; [now constructor|].
    apply lang_star. clear N H1. induction s as [|d s IH]; [exists []; auto|]. cbn in H2. apply andb_true_iff in H2 as [H1 H2].
    destruct (IH H2) as (l & -> & F). exists ([d] :: l). split; [reflexivity|]. constructor; [now constructor|exact F].
Qed.
