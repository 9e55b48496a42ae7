(** Model of the handling of one match of a failregex: fail2ban/server/filter.py:782-849
    (_updateUsers, _mergeFailure) and 911-985 (the part of findFailure from the groups of the match
    to the failures it stands for), in the server (checkAllRegex off, ignorePending on).

    Simplifications:
    - the data of a failure is a record: the groups of the regular expressions, and the keys
      'users', 'matches', 'nofail-matches', 'mlfpending' and 'ip' set by the filter (groups of the
      same name and tuple groups are left out); a missing set or list is the empty one;
    - a session in the cache is the data itself, updated in place: the model writes the final data
      back if the session is still there (the time stored beside it is never used);
    - the cache's clock and the clock of the filter are the same;
    - int() of the group 'cidr' takes decimal digits only. *)
From Verif Require Import Base Text IPAddr_Model Utils_Model Lines_Model.
Local Open Scope string_scope.
Local Open Scope list_scope.

Definition groups := dict string (option text).
Record fail := mkFail {
  f_groups  : groups;
  f_users   : list text;          (* 'users' *)
  f_matches : list line;          (* 'matches' *)
  f_nofail  : list line;          (* 'nofail-matches' *)
  f_pending : bool;               (* 'mlfpending' *)
  f_ip      : option ipaddr       (* 'ip' *)
}.
Definition with_groups g f := mkFail g (f_users f) (f_matches f) (f_nofail f) (f_pending f) (f_ip f).
Definition with_pending b f := mkFail (f_groups f) (f_users f) (f_matches f) (f_nofail f) b (f_ip f).
Definition with_lines m n f := mkFail (f_groups f) (f_users f) m n (f_pending f) (f_ip f).
Definition with_ip i f := mkFail (f_groups f) (f_users f) (f_matches f) (f_nofail f) (f_pending f) i.

(** fail.get(k), and whether it is true *)
Definition gtext (g : groups) (k : string) : option text := match dget k g with Some v => v | None => None end.
Definition truthy (g : groups) (k : string) : bool := match gtext g k with Some (_ :: _) => true | _ => false end.
(** g.update(h), and g.update of the entries of h that are not None *)
Definition update_all (g h : groups) : groups := fold_left (fun d kv => dset (fst kv) (snd kv) d) h g.
Definition update_some (g h : groups) : groups :=
  fold_left (fun d kv => match snd kv with Some _ => dset (fst kv) (snd kv) d | None => d end) h g.

(** filter.py:782-791 *)
Definition add_user (users : list text) (user : option text) : list text :=
  match user with
  | Some (c :: r) => if existsb (eqb (c :: r)) users then users else users ++ [c :: r]
  | _ => users
  end.

Definition key (t : text) : string := string_of_list_ascii t.
Definition sessions := cache fail.
(** filter.py:163-167 *)
Definition no_sessions : sessions := mkCache [] 100 300.

(** filter.py:793-849 _mergeFailure(mlfid, fail, failRegex); [matched] are the lines of the match *)
Definition merge_failure (c : sessions) (now : Z) (mlfid : text) (cur : groups) (matched : list line) : sessions * fail :=
  let '(c, known) := ca_get c now (key mlfid) in
  let gained := truthy cur "mlfgained" in
  let nofail := gained || truthy cur "nofail" in
  let forget := truthy cur "mlfforget" in
  let cur := if gained && negb (truthy cur "nofail") then dset "nofail" (gtext cur "mlfgained") cur else cur in
  let cur := ddel "mlfforget" cur in
  let '(c, f, users) :=
    match known with
    | Some s =>
        let users := add_user (f_users s) (gtext cur "user") in
        let had := truthy (f_groups s) "nofail" || truthy (f_groups s) "mlfgained" in
        let g := ddel "mlfgained" (ddel "nofail" (f_groups s)) in
        let pending := if gained then false else f_pending s in
        let matches := if negb had && negb pending then [] else f_matches s in
        let f := mkFail (update_some g cur) users matches (f_nofail s) pending (f_ip s) in
        (if forget then ca_with_list (ddel (key mlfid) (ca_list c)) c else c, f, users)
    | None =>
        if forget then (c, mkFail cur [] [] [] false None, [])
        else let users := add_user [] (gtext cur "user") in
             let f := mkFail cur users [] [] false None in
             (ca_set c now (key mlfid) f, f, users)
    end in
  let reset := f_pending f || Nat.ltb 1 (length users) in
  let f := with_pending false f in
  let f := if reset then with_groups (ddel "mlfgained" (ddel "nofail" (f_groups f))) f else f in
  let nofail := nofail && negb reset in
  let f := if negb nofail then with_lines (f_nofail f ++ f_matches f ++ matched) [] f
           else if negb forget then with_lines (f_matches f) (f_nofail f ++ matched) f
           else f in
  (c, f).

(** The session as changed in place. *)
Definition poke (c : sessions) (k : string) (f : fail) : sessions :=
  match dget k (ca_list c) with
  | Some (_, e) => ca_with_list (dset k (f, e) (ca_list c)) c
  | None => c
  end.

(** What becomes of the match.  [VNone]: the exception of getFailID, the next failregex is tried;
    [VError]: an exception that ends the processing of the line. *)
Inductive verdict := VQuiet | VWait | VNone | VError | VFound (ids : list ipaddr) (f : fail).

(** filter.py:935-979: from the data to the IDs; also the data as it is left. *)
Definition cidr_of (f : fail) (v6 : bool) : option cidr :=
  match gtext (f_groups f) "cidr" with
  | Some (c :: r) => option_map CLen (read 10 (c :: r))
  | _ => Some (CFam v6)
  end.
Definition identify (raw : bool) (dns : text -> list ipaddr) (session : bool) (f : fail) : verdict * fail :=
  let g := f_groups f in
  let def := if raw then CRaw else CUnspec in
  let fid := gtext g "fid" in
  let single (ip : text) (c : option cidr) :=
    match c with
    | None => (VError, f)
    | Some c =>
        match ip_new ip c with
        | None => (VError, f)
        | Some a =>
            match fid with
            | None => (VFound [a] f, f)
            | Some i => if eqb i ip then (VFound [a] f, f)
                        else let f := with_ip (Some a) f in
                             match ip_new i def with
                             | Some b => (VFound [b] f, f)
                             | None => (VError, f)
                             end
            end
        end
    end in
  match gtext g "ip4" with
  | Some ip => single ip (cidr_of f false)
  | None =>
      match gtext g "ip6" with
      | Some ip => single ip (cidr_of f true)
      | None =>
          match gtext g "dns" with
          | Some name => if raw then single name (Some def) else (VFound (dns name) f, f)
          | None =>
              match fid with
              | Some i => single i (Some def)
              | None => if session then (VWait, with_pending true f) else (VNone, f)
              end
          end
      end
  end.

(** filter.py:911-985 for the groups [cur] of a match *)
Definition take_match (c : sessions) (now : Z) (raw : bool) (dns : text -> list ipaddr) (cur : groups) (matched : list line) : sessions * verdict :=
  match gtext cur "mlfid" with
  | Some id =>
      let '(c, f) := merge_failure c now id cur matched in
      if truthy (f_groups f) "nofail" then (poke c (key id) f, VQuiet)
      else let '(v, f) := identify raw dns true f in (poke c (key id) f, v)
  | None => (c, fst (identify raw dns false (mkFail cur [] matched [] false None)))
  end.

Example session_demo :
  let gs l := map (fun kv => (fst kv, Some (tx (snd kv)))) l in
  let dns := fun _ => [] in
  let '(c, v1) := take_match no_sessions 0 false dns (gs [("mlfid", "s1"); ("ip4", "192.0.2.1"); ("nofail", "x")])%string [ln "connect"] in
  let '(c, v2) := take_match c 5 false dns (gs [("mlfid", "s1"); ("user", "root")])%string [ln "failed"] in
  v1 = VQuiet /\ match v2 with VFound [ip] f => ntoa ip = tx "192.0.2.1" /\ f_matches f = [ln "connect"; ln "failed"] | _ => False end.
Proof. vm_compute. auto. Qed.
