(** Specification vocabulary for the protocol. *)
From Verif Require Import Base Text Proto_Model.

(** The terminator stands somewhere in [m]. *)
Definition has_end (m : bytes) : Prop := exists a b, m = a ++ END ++ b.
(** The byte stream of a list of messages, each followed by the terminator. *)
Definition framed (ms : list bytes) : bytes := concat (map (fun m => m ++ END) ms).

(** All messages of a history of chunks, and what is left over. *)
Definition chunks_in (es : list event) : bytes :=
  concat (map (fun e => match e with Recv c _ => c | Writable _ => [] end) es).

(** What is to be answered: each message before the first CLOSE, in order. *)
Fixpoint until_close (ms : list bytes) : list bytes :=
  match ms with [] => [] | m :: r => if eqb m CLOSE then [] else m :: until_close r end.
(** The reply to one request: the state changes only if the request could be read; the reply is the
    result, or an error text if there is no result or it cannot be written. *)
Section Reply.
Context {T Q R : Type} (loads : bytes -> option Q) (dumps : R -> option bytes) (error : bytes -> bytes) (proceed : T -> Q -> T * R).
Definition reply (t : T) (m : bytes) : T * bytes :=
  (match loads m with Some q => fst (proceed t q) | None => t end,
   match loads m with
   | Some q => match dumps (snd (proceed t q)) with Some d => d | None => error m end
   | None => error m
   end).
End Reply.
Section Answers.
Context {T : Type} (ans : T -> bytes -> T * bytes).
Fixpoint answers (t : T) (ms : list bytes) : list bytes :=
  match ms with [] => [] | m :: r => snd (ans t m) :: answers (fst (ans t m)) r end.
Fixpoint after (t : T) (ms : list bytes) : T :=
  match ms with [] => t | m :: r => after (fst (ans t m)) r end.
End Answers.

(** What is still in the way out before the connection closes. *)
Fixpoint pending (l : list (option bytes)) : bytes :=
  match l with Some d :: r => d ++ pending r | _ => [] end.
Definition unsent (o : outq) : bytes := if o_conn o then pending (o_fifo o) else [].
