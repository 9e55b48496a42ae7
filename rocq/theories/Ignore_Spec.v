(** Specification vocabulary for ignored addresses. *)
From Verif Require Import Base Text IPAddr_Model IPAddr_Spec Utils_Model Ignore_Model.

(** An entry "file:" names a file; up to two slashes behind it do not belong to the name. *)
Definition slash : ascii := "/"%char.
Definition names_file (s n : text) : Prop :=
  exists k, (k <= 2)%nat /\ s = tx "file:" ++ repeat slash k ++ n /\ ((k < 2)%nat -> hd_error n <> Some slash).

(** The one odd case: a file in brackets is taken for a name, that of the file. *)
Definition bracket_file (s : text) : Prop := exists t, s = tx "[file:" ++ t.

(** An address lies in a network, or is one of the addresses of a name. *)
Definition lies_in (w : world) (ip t : ipaddr) : Prop :=
  holds t (i_fam ip) (i_addr ip) \/
  (i_fam t = FUnspec /\ i_raw t <> [] /\ exists r, In r (w_resolve w (i_raw t)) /\ same_ip ip r).
(** What an entry of the ignore list covers. *)
Definition covers (w : world) (s : text) (ip : ipaddr) : Prop :=
  (exists n t, names_file s n /\ In t (w_file w n) /\ lies_in w ip t) \/
  ((forall n, ~ names_file s n) /\ exists net, ip_new s CUnspec = Some net /\ lies_in w ip net).

(** Two entries that are the same file or the same address or network (or name). *)
Definition same_entry (s t : text) : Prop :=
  (exists n, names_file s n /\ names_file t n) \/
  ((forall n, ~ names_file s n) /\ (forall n, ~ names_file t n) /\
   exists a b, ip_new s CUnspec = Some a /\ ip_new t CUnspec = Some b /\ same_ip a b).

(** The entries in force, by what was asked and whether it was accepted: an address or network that
    is already there is not added again; deleting takes one entry away. *)
Inductive entries : list text -> ign_op -> bool -> list text -> Prop :=
| E_rejected L o : entries L o false L
| E_file L s n : names_file s n -> entries L (IAdd s) true (L ++ [s])
| E_again L s t : (forall n, ~ names_file s n) -> In t L -> same_entry s t -> entries L (IAdd s) true L
| E_new L s : s <> [] -> (forall n, ~ names_file s n) -> (forall t, In t L -> ~ same_entry s t) -> entries L (IAdd s) true (L ++ [s])
| E_empty L : entries L (IAdd []) true L
| E_del L1 t L2 s : same_entry s t -> entries (L1 ++ t :: L2) (IDel s) true (L1 ++ L2)
| E_clear L : entries L IClear true []
| E_other L o : match o with IAdd _ | IDel _ | IClear => False | _ => True end -> entries L o true L.
Inductive in_force : list text -> list ign_op -> list bool -> list text -> Prop :=
| F_nil L : in_force L [] [] L
| F_cons L o b L' ops bs L'' : entries L o b L' -> in_force L' ops bs L'' -> in_force L (o :: ops) (b :: bs) L''.

(** The last setting of the options; initially own addresses are ignored and there is no command. *)
Fixpoint last_self (b : bool) (ops : list ign_op) : bool :=
  match ops with [] => b | ISelf x :: r => last_self x r | _ :: r => last_self b r end.
Fixpoint last_command (c : text) (ops : list ign_op) : text :=
  match ops with [] => c | ICommand x :: r => last_command x r | _ :: r => last_command c r end.
Definition no_cache (ops : list ign_op) : Prop := forall c, ~ In (ICache (Some c)) ops.

(** A single address. *)
Definition address (ip : ipaddr) : Prop := is_single ip = true.
(** What the surroundings provide are addresses. *)
Definition sane_world (w : world) : Prop :=
  (forall n, In n (w_own w) -> made n) /\ (forall f n, In n (w_file w f) -> made n).

(** The address is ignored, by the documentation. *)
Definition ignored (ops : list ign_op) (L : list text) (w : world) (q : query) : Prop :=
  (last_self true ops = true /\ exists o, In o (w_own w) /\ lies_in w (q_ip q) o) \/
  (exists s, In s L /\ covers w s (q_ip q)) \/
  (last_command [] ops <> [] /\ w_run w (q_expand q (last_command [] ops)) = Some 0).

(** The cache in use: key, number of entries, seconds an answer is kept. *)
Fixpoint last_cache (c : option (text * nat * Z)) (ops : list ign_op) : option (text * nat * Z) :=
  match ops with [] => c | ICache x :: r => last_cache x r | _ :: r => last_cache c r end.
Definition cache_kept (ops : list ign_op) : Prop := forall c, ~ In (ICache c) ops.
