(** Specification of the journal backend. *)
From Verif Require Import Base Text Journal_Model.
Local Open Scope Z_scope.

(** ** Matches *)
(** An entry meets a match when for every field that is named one of the terms with that field is in the entry. *)
Definition met (g : list text) (e : entry) : Prop :=
  forall t, In t g -> exists u, In u g /\ field_of u = field_of t /\ In u (e_terms e).
(** Chosen are the entries that meet one of the matches; all when there are none. *)
Definition chosen (ms : list (list text)) (e : entry) : Prop :=
  (forall g, In g ms -> g = []) \/ exists g, In g ms /\ g <> [] /\ met g e.
(** matches joined by plus signs *)
Definition plus : text := ["+"%char].
Fixpoint with_plus (gs : list (list text)) : list text :=
  match gs with
  | [] => []
  | [g] => g
  | g :: gs => g ++ plus :: with_plus gs
  end.

(** ** Reading *)
Definition sel (s : st) : entry -> bool := selects (s_reader s).
(** The selected entries that come after the location. *)
Definition unread (s : st) : list entry := filter (fun e => sel s e && after (s_loc s) e) (s_journal s).

(** The journal is in order: keys and times. *)
Fixpoint ordered (j : list entry) : Prop :=
  match j with
  | [] => True
  | e :: j => (forall f, In f j -> e_key e < e_key f /\ e_real e <= e_real f) /\ ordered j
  end.
Record journal_ok (s : st) : Prop := {
  j_order : ordered (s_journal s);
  j_seq : forall e, In e (s_journal s) -> e_key e < s_seq s /\ e_real e <= s_now s
}.
(** The location is a place up to which has been read. *)
Definition loc_ok (s : st) : Prop :=
  match s_loc s with LTail => False | LSeek t => t <= s_now s | LAt k => k < s_seq s end.

(** The entry at the location is there and is selected, or there is none before it. *)
Definition settled (s : st) : Prop :=
  match s_loc s with
  | LTail => False
  | LSeek t => forall e, In e (s_journal s) -> sel s e = true -> t < e_real e
  | LAt k => (exists e, In e (s_journal s) /\ e_key e = k /\ sel s e = true) \/
             (forall e, In e (s_journal s) -> sel s e = true -> k <= e_key e)
  end.
Definition changes_matches (o : op) : bool := match o with OAdd _ | ODel _ => true | _ => false end.
Definition removes (o : op) : bool := match o with ORemove _ => true | _ => false end.
Definition invalidates (o : op) : bool := match o with ORun INVALIDATE _ _ => true | _ => false end.
(** whenever the journal is invalidated the location is settled *)
Fixpoint calm (valid : text -> bool) (has_db : bool) (findtime : Z) (s : st) (os : list op) : Prop :=
  match os with
  | [] => True
  | o :: os => (invalidates o = true -> settled s) /\ calm valid has_db findtime (step valid has_db findtime s o) os
  end.

(** the loop has begun *)
Definition looping (s : st) : Prop := match s_pc s with PCheck | PSeek _ => False | _ => True end.

(** ** What has been read *)
Definition keys (l : list (entry * option bool)) : list Z := map (fun x => e_key (fst x)) l.
Fixpoint increasing (l : list Z) : Prop :=
  match l with [] => True | k :: l => (forall m, In m l -> k < m) /\ increasing l end.

(** The entry at the location is there and selected; if there was none to go to, the time of the start is over. *)
Definition placed (s : st) : Prop :=
  match s_loc s with
  | LTail => False
  | LSeek t => t < s_now s /\ forall e, In e (s_journal s) -> sel s e = true -> t < e_real e
  | LAt k => exists e, In e (s_journal s) /\ e_key e = k /\ sel s e = true
  end.

(** Only the thread runs, and nothing fails. *)
Definition runs (os : list op) : Prop := forall o, In o os -> exists w, o = ORun w false false.

(** the time of the last entry that was handed over *)
Fixpoint last_time (d : option Z) (l : list (entry * option bool)) : option Z :=
  match l with
  | [] => d
  | (e, Some _) :: l => last_time (Some (entry_time e)) l
  | (_, None) :: l => last_time d l
  end.

(** the kinds of what happens *)
Definition is_run (o : op) : bool := match o with ORun _ _ _ => true | _ => false end.
Definition is_bad (o : op) : bool := match o with ORun _ _ b => b | _ => false end.
Definition errs (o : op) : bool := match o with ORun _ e _ => e | _ => false end.

(** ** The line *)
Definition with_message (m : text + list text) (f : fields) : fields :=
  mkF (f_host f) (f_ident f) (f_comm f) (f_syslog_pid f) (f_pid f) (f_mono f) m.
Definition newline : ascii := "010"%char.
