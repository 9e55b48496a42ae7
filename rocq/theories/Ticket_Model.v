(** Model of fail2ban/server/ticket.py.

    One record holds the slots of [Ticket], [FailTicket] and [BanTicket]
    (ticket.py:36, 229-230, 217-222). Simplifications:
    - the ID is its canonical text (ticket.py:89-93 turns text into an [IPAddr];
      address equality is modelled separately in the IP files);
    - of the data dictionary [_data] only the keys 'matches' and 'failures' are kept,
      'matches' as an option because the key can be deleted (ticket.py:145-152);
      'failures' is always present (it is set by the constructor, ticket.py:56);
    - times and counters are integers (Python: float seconds, int);
    - the class (FailTicket / BanTicket) is a boolean. *)
From Verif Require Import Base.

Record ticket := mkTicket {
  t_id        : string;              (* _id *)
  t_time      : Z;                   (* _time *)
  t_bantime   : option Z;            (* _banTime, None = default of the jail *)
  t_bancount  : Z;                   (* _banCount *)
  t_restored  : bool;                (* _flags & RESTORED *)
  t_banned    : bool;                (* _flags & BANNED *)
  t_epoch     : Z;                   (* _banEpoch *)
  t_failures  : Z;                   (* _data['failures'] *)
  t_matches   : option (list string);(* _data['matches'] if present *)
  t_first     : Z;                   (* FailTicket._firstTime *)
  t_retry     : Z;                   (* FailTicket._retry *)
  t_isban     : bool                 (* isinstance(self, BanTicket) *)
}.

(** ticket.py:38  MAX_TIME = 0X7FFFFFFFFFFF *)
Definition MAX_TIME : Z := 0x7FFFFFFFFFFF.

(** ticket.py:43-63 and 227-236: a new FailTicket(ip, time, matches, {'failures': n}). *)
Definition new_ticket (id : string) (time : Z) (matches : list string) (failures : Z) : ticket :=
  {| t_id := id; t_time := time; t_bantime := None; t_bancount := 0;
     t_restored := false; t_banned := false; t_epoch := 0;
     t_failures := failures; t_matches := Some matches;
     t_first := time; t_retry := failures; t_isban := false |}.

Definition with_time v t := {| t_id := t_id t; t_time := v; t_bantime := t_bantime t;
  t_bancount := t_bancount t; t_restored := t_restored t; t_banned := t_banned t;
  t_epoch := t_epoch t; t_failures := t_failures t; t_matches := t_matches t;
  t_first := t_first t; t_retry := t_retry t; t_isban := t_isban t |}.
(** ticket.py:107 setBanTime *)
Definition with_bantime v t := {| t_id := t_id t; t_time := t_time t; t_bantime := v;
  t_bancount := t_bancount t; t_restored := t_restored t; t_banned := t_banned t;
  t_epoch := t_epoch t; t_failures := t_failures t; t_matches := t_matches t;
  t_first := t_first t; t_retry := t_retry t; t_isban := t_isban t |}.
Definition with_bancount v t := {| t_id := t_id t; t_time := t_time t; t_bantime := t_bantime t;
  t_bancount := v; t_restored := t_restored t; t_banned := t_banned t;
  t_epoch := t_epoch t; t_failures := t_failures t; t_matches := t_matches t;
  t_first := t_first t; t_retry := t_retry t; t_isban := t_isban t |}.
(** ticket.py:161-166 restored setter *)
Definition with_restored v t := {| t_id := t_id t; t_time := t_time t; t_bantime := t_bantime t;
  t_bancount := t_bancount t; t_restored := v; t_banned := t_banned t;
  t_epoch := t_epoch t; t_failures := t_failures t; t_matches := t_matches t;
  t_first := t_first t; t_retry := t_retry t; t_isban := t_isban t |}.
(** ticket.py:171-176 banned setter *)
Definition with_banned v t := {| t_id := t_id t; t_time := t_time t; t_bantime := t_bantime t;
  t_bancount := t_bancount t; t_restored := t_restored t; t_banned := v;
  t_epoch := t_epoch t; t_failures := t_failures t; t_matches := t_matches t;
  t_first := t_first t; t_retry := t_retry t; t_isban := t_isban t |}.
(** ticket.py:220-222 banEpoch setter *)
Definition with_epoch v t := {| t_id := t_id t; t_time := t_time t; t_bantime := t_bantime t;
  t_bancount := t_bancount t; t_restored := t_restored t; t_banned := t_banned t;
  t_epoch := v; t_failures := t_failures t; t_matches := t_matches t;
  t_first := t_first t; t_retry := t_retry t; t_isban := t_isban t |}.
Definition with_failures v t := {| t_id := t_id t; t_time := t_time t; t_bantime := t_bantime t;
  t_bancount := t_bancount t; t_restored := t_restored t; t_banned := t_banned t;
  t_epoch := t_epoch t; t_failures := v; t_matches := t_matches t;
  t_first := t_first t; t_retry := t_retry t; t_isban := t_isban t |}.
Definition with_matches v t := {| t_id := t_id t; t_time := t_time t; t_bantime := t_bantime t;
  t_bancount := t_bancount t; t_restored := t_restored t; t_banned := t_banned t;
  t_epoch := t_epoch t; t_failures := t_failures t; t_matches := v;
  t_first := t_first t; t_retry := t_retry t; t_isban := t_isban t |}.
Definition with_first v t := {| t_id := t_id t; t_time := t_time t; t_bantime := t_bantime t;
  t_bancount := t_bancount t; t_restored := t_restored t; t_banned := t_banned t;
  t_epoch := t_epoch t; t_failures := t_failures t; t_matches := t_matches t;
  t_first := v; t_retry := t_retry t; t_isban := t_isban t |}.
Definition with_retry v t := {| t_id := t_id t; t_time := t_time t; t_bantime := t_bantime t;
  t_bancount := t_bancount t; t_restored := t_restored t; t_banned := t_banned t;
  t_epoch := t_epoch t; t_failures := t_failures t; t_matches := t_matches t;
  t_first := t_first t; t_retry := v; t_isban := t_isban t |}.
(** ticket.py:279-293 wrap: the same object, another class *)
Definition with_isban v t := {| t_id := t_id t; t_time := t_time t; t_bantime := t_bantime t;
  t_bancount := t_bancount t; t_restored := t_restored t; t_banned := t_banned t;
  t_epoch := t_epoch t; t_failures := t_failures t; t_matches := t_matches t;
  t_first := t_first t; t_retry := t_retry t; t_isban := v |}.

(** ticket.py:110-111 getBanTime(defaultBT) *)
Definition get_bantime (dflt : Z) (t : ticket) : Z :=
  match t_bantime t with Some b => b | None => dflt end.

(** ticket.py:113-115 setBanCount(value, always) *)
Definition set_bancount (value : Z) (always : bool) (t : ticket) : ticket :=
  if always || (value >? t_bancount t) then with_bancount value t else t.

(** ticket.py:117-118 incrBanCount() *)
Definition incr_bancount (t : ticket) : ticket := with_bancount (t_bancount t + 1) t.

(** ticket.py:123-129 getEndOfBanTime(defaultBT) *)
Definition end_of_ban (dflt : Z) (t : ticket) : Z :=
  let bt := get_bantime dflt t in
  if bt =? -1 then MAX_TIME else t_time t + bt.

(** ticket.py:131-137 isTimedOut(time, defaultBT) *)
Definition is_timed_out (time dflt : Z) (t : ticket) : bool :=
  let bt := get_bantime dflt t in
  if bt =? -1 then false else time >? t_time t + bt.

(** ticket.py:154-156 getMatches(): a missing key reads as the empty list *)
Definition get_matches (t : ticket) : list string :=
  match t_matches t with Some m => m | None => [] end.

(** ticket.py:145-152 setMatches(matches): an empty value deletes the key *)
Definition set_matches (m : list string) (t : ticket) : ticket :=
  match m with [] => with_matches None t | _ => with_matches (Some m) t end.

(** ticket.py:238-247 setRetry(value) *)
Definition set_retry (value : Z) (t : ticket) : ticket :=
  let t := with_retry value t in
  let t := if t_failures t =? 0 then with_failures 1 t else t in
  if value =? 0 then with_matches (Some []) (with_failures 0 t) else t.

(** Python's round() to an integer is round-half-to-even; [num/den] with [den > 0]. *)
Definition round_half_even (num den : Z) : Z :=
  let q := num / den in
  let r := num mod den in
  if 2 * r <? den then q
  else if den <? 2 * r then q + 1
  else if Z.even q then q else q + 1.

(** ticket.py:255-266 adjustTime(time, maxTime).
    Simplification: [retry / float(dt) * maxTime] is computed exactly as the
    rational retry*maxTime/dt before rounding (Python uses a double). *)
Definition adjust_time (time maxTime : Z) (t : ticket) : ticket :=
  if time >? t_time t then
    let t := if t_first t <? time - maxTime
             then with_first (time - maxTime)
                    (with_retry (round_half_even (t_retry t * maxTime) (time - t_first t)) t)
             else t in
    with_time time t
  else t.

(** ticket.py:268-276 inc(matches, attempt, count).  [None] in the result is the
    KeyError raised by [self._data['matches']] when the key was deleted; the counters
    have been increased by then, so the mutated ticket is returned in both cases. *)
Definition inc (matches : option (list string)) (attempt count : Z) (t : ticket)
  : ticket * bool (* true = KeyError *) :=
  let t := with_failures (t_failures t + attempt) (with_retry (t_retry t + count) t) in
  match matches with
  | None | Some [] => (t, false)
  | Some m =>
      match t_matches t with
      | None => (t, true)
      | Some old => (with_matches (Some (old ++ m)) t, false)
      end
  end.
