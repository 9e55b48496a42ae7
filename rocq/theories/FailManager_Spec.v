(** Specification vocabulary for the failure manager: what a client that only sees the
    calls and their results can say about one ID.  No function of the model is used. *)
From Verif Require Import Base Ticket_Model FailManager_Model.

(** What has been reported for one ID since it was last unknown. *)
Record entry := mkE {
  e_last    : Z;             (* latest time of a report *)
  e_weight  : Z;             (* weight of all reports together *)
  e_reports : nat;           (* number of reports *)
  e_lines   : list string    (* all log lines reported, oldest first *)
}.

Definition op_lines (tk : ticket) : list string :=
  match t_matches tk with Some m => m | None => [] end.

(** The weight of one reported ticket: its count, or the attempts the ticket already
    carries if that is more. *)
Definition report_weight (tk : ticket) (count : Z) : Z := Z.max count (t_retry tk).

(** Observer of the calls and results concerning [id]; the findtime in force is known. *)
Definition track1 (id : string) (st : Z * option entry) (ev : fm_op * fm_out) : Z * option entry :=
  let '(findtime, e) := st in
  match ev with
  | (FAdd tk count observed, _) =>
      if eqb (t_id tk) id then
        (findtime,
         match e with
         | None => if observed || t_isban tk then None
                   else Some {| e_last := t_time tk; e_weight := report_weight tk count;
                                e_reports := 1; e_lines := op_lines tk |}
         | Some e => Some {| e_last := Z.max (e_last e) (t_time tk);
                             e_weight := e_weight e + report_weight tk count;
                             e_reports := S (e_reports e);
                             e_lines := e_lines e ++ op_lines tk |}
         end)
      else st
  | (FAddSame i count _, _) =>
      if eqb i id then
        (findtime,
         match e with
         | None => None
         | Some e => Some {| e_last := e_last e; e_weight := e_weight e + count;
                             e_reports := S (e_reports e); e_lines := e_lines e |}
         end)
      else st
  | (FCleanup t, _) =>                   (* forgotten if last seen at or before t - findtime *)
      (findtime,
       match e with
       | Some e => if e_last e <=? t - findtime then None else Some e
       | None => None
       end)
  | (FDel i, _) => if eqb i id then (findtime, None) else st
  | (FToBan _, OTicket (Some t)) => if eqb (t_id t) id then (findtime, None) else st
  | (FToBan _, _) => st
  | (FSetRetry _, _) => st
  | (FSetTime n, _) => (n, e)
  | (FSetMatches _, _) => st
  end.

Definition track (id : string) (findtime : Z) (evs : list (fm_op * fm_out)) : option entry :=
  snd (fold_left (track1 id) evs (findtime, None)).

(** Well-formed calls: counters, counts and findtime are not negative. *)
Definition sane_op (o : fm_op) : Prop :=
  match o with
  | FAdd tk count _ => 0 <= count /\ 0 <= t_retry tk /\ 0 <= t_failures tk
  | FAddSame _ count _ => 0 <= count
  | FSetTime n => 0 <= n
  | _ => True
  end.

(** The maxMatches setting is not changed, and reported tickets have a 'matches' key
    (every ticket built by the constructor has). *)
Definition fixed_matches_op (o : fm_op) : Prop :=
  match o with
  | FAdd tk _ _ => t_matches tk <> None
  | FSetMatches _ => False
  | _ => True
  end.

(** A manager as created by the constructor, up to its settings. *)
Definition fresh_fm (fm : failmgr) : Prop := fm_list fm = [] /\ 0 <= fm_time fm.

(** Plain report of one failure of [id] at [t], as the filter makes it. *)
Definition plain_report (id : string) (t : Z) : fm_op := FAdd (new_ticket id t [] 0) 1 false.

(** Number of plain reports of [id] later than [t - findtime] and not after [t]. *)
Definition recent (id : string) (findtime t : Z) (ops : list fm_op) : nat :=
  length (filter (fun o => match o with
                           | FAdd tk _ _ => eqb (t_id tk) id && (t - findtime <? t_time tk)
                                            && (t_time tk <=? t)
                           | _ => false end) ops).

(** ** Vocabulary for "all failures of one ID lie inside one findtime window" *)

(** Times of the reports concerning [id]. *)
Fixpoint report_times (id : string) (ops : list fm_op) : list Z :=
  match ops with
  | [] => []
  | FAdd tk _ _ :: r => if eqb (t_id tk) id then t_time tk :: report_times id r else report_times id r
  | _ :: r => report_times id r
  end.

(** Calls that may be interleaved with the reports of [id]: anything that concerns other
    IDs, bans, changes of maxretry; reports of [id] are plain single failures with any log
    lines; clean-ups happen while the failure at [t0] is not outdated yet. *)
Definition window_op (id : string) (t0 findtime : Z) (o : fm_op) : Prop :=
  match o with
  | FAdd tk count observed =>
      t_id tk = id -> count = 1 /\ observed = false /\ exists t lines, tk = new_ticket id t lines 0
  | FAddSame i _ _ => i <> id
  | FCleanup t => t - findtime < t0
  | FDel i => i <> id
  | FSetTime _ => False
  | FSetMatches _ => False
  | _ => True
  end.

(** [id] was not handed out for a ban. *)
Definition not_handed_out (id : string) (outs : list fm_out) : Prop :=
  forall t, In (OTicket (Some t)) outs -> t_id t <> id.
