(** What one expects of fail2ban-regex. *)
From Verif Require Import Base Text IPAddr_Model Lines_Model Session_Model Filter_Model Tool_Model.
Local Open Scope string_scope. Local Open Scope list_scope. Local Open Scope Z_scope.

(** A line that is looked at: neither empty nor a comment. *)
Definition looked_at (i : input) : bool :=
  match i with
  | IDated _ _ => true
  | ILine t => existsb (fun c => negb (eqb c "010"%char || eqb c "013"%char)) t && negb (eqb (hd_error t) (Some "#"%char))
  end.
Definition number (k : kind) (said : list (text * kind)) : Z :=
  Z.of_nat (length (filter (fun p => match snd p, k with KMatched, KMatched | KIgnored, KIgnored | KMissed, KMissed => true | _, _ => false end) said)).
(** the lines of which this was said *)
Definition those (k : kind) (said : list (text * kind)) : list text :=
  map fst (filter (fun p => match snd p, k with KMatched, KMatched | KIgnored, KIgnored | KMissed, KMissed => true | _, _ => false end) said).
Definition single_line (cfg : fcfg) : Prop := (c_maxlines cfg <= 1)%nat.
(** The expressions do not follow sessions over lines, and what a failregex matches names the one who failed. *)
Definition has_group (k : string) (g : groups) : Prop := In k (map fst g).
Definition simple_groups (g : groups) : Prop := ~ has_group "mlfid" g /\ ~ has_group "nofail" g /\ NoDup (map fst g).
Definition simple (cfg : fcfg) : Prop :=
  (forall p buf m, c_pref cfg = Some p -> p buf = Some m -> simple_groups (m_groups m)) /\
  (forall p buf m, In p (c_fail cfg) -> p buf = Some m -> simple_groups (m_groups m) /\
     exists k v, In k ["ip4"; "ip6"; "dns"; "fid"] /\ In (k, Some v) (m_groups m)).
(** The line has a date, and the server does not leave it out for its age. *)
Definition date_of (w : fworld) (i : input) : option Z :=
  match i with
  | IDated _ d => Some d
  | ILine t => match fw_detect w t with
               | Some (s, e, d) => if Nat.ltb s e && Nat.ltb s (length t) then d else None
               | None => None
               end
  end.
Definition taken (cfg : fcfg) (now findtime d : Z) : Prop := c_operation cfg = true \/ now - findtime <= d.
(** Host names are not looked up, or all of them have addresses. *)
Definition resolves (cfg : fcfg) (w : fworld) : Prop := c_raw cfg = true \/ forall n, fw_dns w n <> [].
