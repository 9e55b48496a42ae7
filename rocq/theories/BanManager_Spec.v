(** Specification vocabulary for the ban manager. *)
From Verif Require Import Base Ticket_Model BanManager_Model.

(** When a ban is over: [None] = never. *)
Definition ban_end (start duration : Z) : option Z :=
  if duration =? -1 then None else Some (start + duration).

Definition duration_of (dflt : Z) (t : ticket) : Z :=
  match t_bantime t with Some b => b | None => dflt end.

(** The ban of [t] is over at [now]: it is not permanent and its end lies before [now]. *)
Definition over (dflt now : Z) (t : ticket) : Prop :=
  match ban_end (t_time t) (duration_of dflt t) with
  | None => False
  | Some e => e < now
  end.

Definition overb (dflt now : Z) (t : ticket) : bool :=
  match ban_end (t_time t) (duration_of dflt t) with
  | None => false
  | Some e => e <? now
  end.

(** What a client can tell about [id] from the calls and their results. *)
Definition banned1 (id : string) (b : bool) (ev : bm_op * bm_out) : bool :=
  match ev with
  | (BAdd tk _, RAdd AAdded) => if eqb (t_id tk) id then true else b
  | (BUnban _ _, RList l) => if existsb (fun t => eqb (t_id t) id) l then false else b
  | (BFlush, _) => false
  | (BPop i, _) => if eqb i id then false else b
  | _ => b
  end.
Definition banned_after (id : string) (evs : list (bm_op * bm_out)) : bool :=
  fold_left (banned1 id) evs false.

(** Number of bans reported as newly added. *)
Definition additions (outs : list bm_out) : Z :=
  Z.of_nat (length (filter (fun o => match o with RAdd AAdded => true | _ => false end) outs)).

(** Calls that do not shorten an active ban: the default ban time may only grow (or
    become permanent) and the observer only prolongs. *)
Definition longer_or_eq (old new : Z) : Prop := new = -1 \/ (old <> -1 /\ old <= new).
Definition no_shortening (bm : banmgr) (o : bm_op) : Prop :=
  match o with
  | BSetTime v => longer_or_eq (bm_time bm) v
  | BMutate id bt => forall t, dget id (bm_list bm) = Some t -> longer_or_eq (duration_of (bm_time bm) t) bt
  | _ => True
  end.
Fixpoint no_shortening_run (bm : banmgr) (ops : list bm_op) : Prop :=
  match ops with
  | [] => True
  | o :: r => no_shortening bm o /\ no_shortening_run (fst (bm_step bm o)) r
  end.

(** Calls of the expiry check repeated [k] times at the same time. *)
Fixpoint unban_times (k : nat) (bm : banmgr) (time : Z) (maxCount : nat) : banmgr * list ticket :=
  match k with
  | O => (bm, [])
  | S k => let '(bm1, l1) := unban_list bm time maxCount in
           let '(bm2, l2) := unban_times k bm1 time maxCount in (bm2, l1 ++ l2)
  end.

(** Sorted by a key, and stable: elements with equal keys keep their order. *)
Definition sorted_by (key : ticket -> Z) (l : list ticket) : Prop :=
  forall i j x y, (i < j)%nat -> nth_error l i = Some x -> nth_error l j = Some y -> key x <= key y.
Definition stable_by (key : ticket -> Z) (l l' : list ticket) : Prop :=
  forall k, filter (fun t => key t =? k) l' = filter (fun t => key t =? k) l.

(** Order of ends of ban: permanent ([None]) is the greatest. *)
Definition end_le (a b : option Z) : Prop :=
  match a, b with
  | _, None => True
  | None, Some _ => False
  | Some x, Some y => x <= y
  end.
Definition end_of (dflt : Z) (t : ticket) : option Z := ban_end (t_time t) (duration_of dflt t).

(** The end of ban is representable (before the year 4461763). *)
Definition bounded (dflt : Z) (t : ticket) : Prop :=
  match end_of dflt t with None => True | Some e => e < MAX_TIME end.

(** What remains after removing the first [n] entries that satisfy [f]. *)
Fixpoint drop_first {A} (f : A -> bool) (n : nat) (l : list A) : list A :=
  match l, n with
  | _, O => l
  | [], _ => []
  | a :: r, S n' => if f a then drop_first f n' r else a :: drop_first f n r
  end.

(** A manager that holds no ban yet (whatever its configured ban time and counter). *)
Definition fresh_bm (bm : banmgr) : Prop := bm_list bm = [] /\ bm_next bm = MAX_TIME.
