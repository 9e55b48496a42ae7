(** What the lines of a session mean, said from the lines alone (the latest line first). *)
From Verif Require Import Base Text IPAddr_Model Lines_Model Session_Model.
Local Open Scope string_scope.
Local Open Scope list_scope.

(** A match in some session: the named groups and the lines it took. *)
Record event := mkE { e_groups : groups; e_lines : list line }.

(** The text a group captured; present: and not the empty text. *)
Definition field (e : event) (k : string) : option text := match dget k (e_groups e) with Some (Some t) => Some t | _ => None end.
Definition present (e : event) (k : string) : Prop := exists c t, field e k = Some (c :: t).
Definition presentb (e : event) (k : string) : bool := match field e k with Some (_ :: _) => true | _ => false end.

(** The latest text captured for a group in the session. *)
Fixpoint latest (k : string) (es : list event) : option text :=
  match es with
  | [] => None
  | e :: r => match field e k with Some t => Some t | None => latest k r end
  end.
(** The users named in the session, each once. *)
Fixpoint users (es : list event) : list text :=
  match es with
  | [] => []
  | e :: r => match field e "user" with
              | Some (c :: t) => if in_dec (list_eq_dec Ascii.ascii_dec) (c :: t) (users r) then users r else users r ++ [c :: t]
              | _ => users r
              end
  end.
Definition no_id (es : list event) : Prop := latest "fid" es = None /\ latest "ip4" es = None /\ latest "ip6" es = None /\ latest "dns" es = None.
Definition no_idb (es : list event) : bool :=
  match latest "fid" es, latest "ip4" es, latest "ip6" es, latest "dns" es with None, None, None, None => true | _, _, _, _ => false end.

(** A line is quiet if it says so (or that the access was gained), unless failures wait for the
    address (which gained access cancels), or the session names several users.
    Failures wait after a line that is not quiet as long as no address is known. *)
Fixpoint quiet (e : event) (es : list event) : bool :=
  let waits := match es with [] => false | e' :: r => negb (quiet e' r) && no_idb es end in
  (presentb e "nofail" || presentb e "mlfgained") && (presentb e "mlfgained" || negb waits) && Nat.leb (length (users (e :: es))) 1.
Definition waiting (es : list event) : bool := match es with [] => false | e :: r => negb (quiet e r) && no_idb es end.

(** The last line was reported as a failure. *)
Definition just_reported (es : list event) : bool := match es with [] => false | e :: r => negb (quiet e r) && negb (no_idb es) end.
(** The lines a failure shows: its own and those since the last one reported, in order; when the
    access is gained, failures that wait are dropped with their lines. *)
Fixpoint collected (es : list event) : list line :=
  match es with
  | [] => []
  | e :: r => (if just_reported r || (waiting r && presentb e "mlfgained") then [] else collected r) ++ e_lines e
  end.

(** ** The life of a session: from its first line for 300 seconds, or until a line that ends it. *)
Record seen := mkSeen { s_now : Z; s_raw : bool; s_dns : text -> list ipaddr; s_event : event }.
Definition session_of (o : seen) : option text := field (s_event o) "mlfid".
Definition life1 (id : text) (st : option (Z * list event)) (o : seen) : option (Z * list event) :=
  match session_of o with
  | Some i => if list_eq_dec Ascii.ascii_dec i id then
                let st := match st with
                          | Some (t0, es) => if Z_lt_dec (s_now o) (t0 + 300) then Some (t0, es) else None
                          | None => None
                          end in
                if presentb (s_event o) "mlfforget" then None
                else match st with
                     | Some (t0, es) => Some (t0, s_event o :: es)
                     | None => Some (s_now o, [s_event o])
                     end
              else st
  | None => st
  end.
Definition life (id : text) (os : list seen) : option (Z * list event) := fold_left (life1 id) os None.
(** The lines of the session before one at the time [now]. *)
Definition before (id : text) (os : list seen) (now : Z) : list event :=
  match life id os with Some (t0, es) => if Z_lt_dec now (t0 + 300) then es else [] | None => [] end.

(** At most 100 sessions altogether, so that none is pushed out; groups have a value each. *)
Definition few_sessions (os : list seen) : Prop :=
  exists ids : list text, (length ids <= 100)%nat /\ forall o i, In o os -> session_of o = Some i -> In i ids.
Definition proper_groups (os : list seen) : Prop := forall o, In o os -> dwf (e_groups (s_event o)).

(** ** Whose failure it is: an IPv4 address, else an IPv6 address, else a host name, which is looked
    up (unless names are taken as they are); a failure ID of its own is used instead of an address. *)
Definition with_id (raw : bool) (get : string -> option text) (ip : text) (c : cidr) : option (list ipaddr) :=
  match ip_new ip c with
  | None => None
  | Some a => match get "fid" with
              | Some i => if list_eq_dec Ascii.ascii_dec i ip then Some [a]
                          else option_map (fun b => [b]) (ip_new i (if raw then CRaw else CUnspec))
              | None => Some [a]
              end
  end.
Definition mask_of (get : string -> option text) (v6 : bool) : option cidr :=
  match get "cidr" with Some (c :: r) => option_map CLen (read 10 (c :: r)) | _ => Some (CFam v6) end.
Definition who (raw : bool) (dns : text -> list ipaddr) (get : string -> option text) : option (list ipaddr) :=
  match get "ip4", get "ip6", get "dns", get "fid" with
  | Some ip, _, _, _ => match mask_of get false with Some c => with_id raw get ip c | None => None end
  | None, Some ip, _, _ => match mask_of get true with Some c => with_id raw get ip c | None => None end
  | None, None, Some n, _ => if raw then with_id raw get n CRaw else Some (dns n)
  | None, None, None, Some i => option_map (fun b => [b]) (ip_new i (if raw then CRaw else CUnspec))
  | None, None, None, None => None
  end.

(** ** Running: a match is handed to the filter; after all matches of a history. *)
Definition see (c : sessions) (o : seen) : sessions * verdict :=
  take_match c (s_now o) (s_raw o) (s_dns o) (e_groups (s_event o)) (e_lines (s_event o)).
Definition see_all (os : list seen) : sessions := fold_left (fun c o => fst (see c o)) os no_sessions.
(** The groups that are not marks for the session itself. *)
Definition ordinary (k : string) : Prop := ~ In k ["nofail"; "mlfgained"; "mlfforget"].
