(** Vocabulary for what a filter makes of its lines, said from the calls. *)
From Verif Require Import Base Text IPAddr_Model Lines_Model Session_Model Ignore_Model Ignore_Props Filter_Model.
From Verif Require Export Filter_Count.

(** ** The failures found, as they are written to the log *)
Definition id_of (ip : ipaddr) : string := string_of_list_ascii (ntoa ip).
(** How many failures one found by a call stands for: an attempt reported by a client counts for
    each of its log lines. *)
Definition weight (o : flt_op) : Z :=
  match o with
  | FAttempt _ _ [] => 1
  | FAttempt _ _ m => Z.of_nat (length m)
  | _ => 1
  end.
Definition found_by (x : flt_op * list (ipaddr * Z)) : list (string * Z * Z) :=
  map (fun e => (id_of (fst e), snd e, weight (fst x))) (snd x).
Definition all_found (ops : list flt_op) (evs : list (list (ipaddr * Z))) : list (string * Z * Z) :=
  concat (map found_by (combine ops evs)).
(** Findtimes set are not negative. *)
Definition sane_settings (ops : list flt_op) : Prop := forall n, In (FFind n) ops -> 0 <= n.

(** ** Settings in force *)
(** the calls for the ignore list *)
Fixpoint ignore_calls (ops : list flt_op) : list ign_op :=
  match ops with [] => [] | FIgnore o :: r => o :: ignore_calls r | _ :: r => ignore_calls r end.
Definition no_queries (ops : list flt_op) : Prop := forall w q, ~ In (FIgnore (IQuery w q)) ops.
Fixpoint findtime (n : Z) (ops : list flt_op) : Z :=
  match ops with [] => n | FFind m :: r => findtime m r | _ :: r => findtime n r end.

(** ** The time of a line *)
(** Its own time stamp, if it has one that can be read. *)
Definition stamp (w : fworld) (i : input) : option Z :=
  match i with
  | IDated _ d => Some d
  | ILine t => match fw_detect w t with
               | Some (s, e, Some d) => if Nat.ltb s (Nat.min e (length t)) then Some d else None
               | _ => None
               end
  end.
(** The date pattern matches but nothing is there: the time stamp is optional. *)
Definition optional_stamp (w : fworld) (i : input) : bool :=
  match i with
  | IDated _ _ => false
  | ILine t => match fw_detect w t with
               | Some (s, e, _) => negb (Nat.ltb s (Nat.min e (length t)))
               | None => false
               end
  end.
(** The time of the last line, if it is not older than a minute (the time 0 is no time). *)
Definition recent (now : Z) (last : option Z) : option Z :=
  match last with Some d => if (d =? 0) || (d <=? now - 60) then None else Some d | None => None end.
(** The time taken for a line: its own, else that of the last line if recent, else now, but only
    during operation or if time stamps are optional. *)
Definition taken_time (oper : bool) (w : fworld) (last : option Z) (i : input) : option Z :=
  match stamp w i with
  | Some d => Some d
  | None => match recent (fw_now w) last with
            | Some d => Some d
            | None => if oper || optional_stamp w i then Some (fw_now w) else None
            end
  end.
(** During operation a time more than a minute away from now is replaced by now; before, lines older
    than findtime do not count. *)
Definition odd (now d : Z) : bool := (d <? now - 60) || (now + 60 <? d).
Definition line_time (oper : bool) (ft : Z) (w : fworld) (last : option Z) (i : input) : option Z :=
  match taken_time oper w last i with
  | None => None
  | Some d => if oper then Some (if odd (fw_now w) d then fw_now w else Z.min d (fw_now w))
              else if d <? fw_now w - ft then None else Some (Z.min d (fw_now w))
  end.
(** The time of the last line: its time stamp, or now if that was odd during operation. *)
Definition last1 (last : option Z) (o : flt_op) : option Z :=
  match o with
  | FLine cfg w i =>
      let d := match stamp w i with Some d => Some d | None => last end in
      match taken_time (c_operation cfg) w last i with
      | Some t => if c_operation cfg && odd (fw_now w) t then Some (fw_now w) else d
      | None => d
      end
  | _ => last
  end.
Definition last_time (ops : list flt_op) : option Z := fold_left last1 ops None.

(** ** Regular expressions *)
Definition matches (p : pattern) (t : text) : Prop := p t <> None.
(** The text searched for a single line. *)
Definition line_buf (l : line) : text := lines_buf [l].
(** No match is empty or runs over the end. *)
Definition proper (p : pattern) : Prop := forall t m, p t = Some m -> (m_start m < m_end m <= length t)%nat.
Definition proper_cfg (cfg : fcfg) : Prop :=
  Forall proper (c_fail cfg) /\ (forall p, c_pref cfg = Some p -> proper p).
(** The text searched for a line: without its time stamp. *)
Definition text_searched (w : fworld) (last : option Z) (i : input) : text :=
  match i with
  | IDated (a, _, b) _ => a ++ b
  | ILine t => match fw_detect w t with
               | None => t
               | Some (s, e, _) => match stamp w i, recent (fw_now w) last with
                                   | None, Some _ => t
                                   | _, _ => firstn s t ++ skipn e t
                                   end
               end
  end.
(** The groups name a session or say whose failure it is. *)
Definition names_someone (g : groups) : Prop := exists k t, In k ["mlfid"; "fid"; "ip4"; "ip6"; "dns"]%string /\ dget k g = Some (Some t).
(** The configuration with other failregex. *)
Definition with_fail (rs : list pattern) (cfg : fcfg) : fcfg := mkCfg (c_raw cfg) (c_maxlines cfg) (c_pref cfg) rs (c_ignore cfg) (c_operation cfg).
(** Lines fed so far. *)
Fixpoint lines_fed (ops : list flt_op) : Z := match ops with [] => 0 | FLine _ _ _ :: r => 1 + lines_fed r | _ :: r => lines_fed r end.
Definition max_lines (n : nat) (ops : list flt_op) : Prop := forall cfg w i, In (FLine cfg w i) ops -> (c_maxlines cfg <= n)%nat /\ proper_cfg cfg.
(** maxretry is not lowered. *)
Fixpoint never_lowered (n : Z) (ops : list flt_op) : Prop :=
  match ops with [] => True | FRetry m :: r => n <= m /\ never_lowered m r | _ :: r => never_lowered n r end.
(** Whatever may be ignored is not: empty list, own addresses not ignored, no command. *)
Definition ignore_nothing : list flt_op := [FIgnore IClear; FIgnore (ISelf false); FIgnore (ICommand [])].
