(** Property theorems about the control protocol (C38). *)
From Verif Require Import Base Text Proto_Model Proto_Spec Proto_Proofs.
From Coq Require Import ZifyBool ZifyNat.

Local Ltac calc := repeat match goal with |- _ /\ _ => split; [vm_compute; reflexivity|] end; vm_compute; reflexivity.

Section Props.
Context {T Q R : Type}.
Context (loads : bytes -> option Q) (dumps : R -> option bytes) (error : bytes -> bytes).
Context (proceed : T -> Q -> T * R).
Context (obs : nat) (Hobs : (0 < obs)%nat).
Notation ans := (reply loads dumps error proceed).
Notation conn_run := (conn_run loads dumps error proceed obs).

(** C38: however the byte stream of the requests is cut into chunks, whenever the socket takes
    bytes and however many: the requests that are complete are handled once each, in order, up to
    the close command; what has been sent and what is still to be sent is the framed answers in
    the order of the requests; no byte of an incomplete request is handled. *)
Theorem C38_any_chunking : forall t0 es ms rest,
  chunks_in es = framed ms ++ rest -> Forall (fun m => ~ has_end m) ms -> ~ has_end rest ->
  let '(t, c) := conn_run t0 es in
  o_sent (c_out c) ++ unsent (c_out c) = framed (answers ans t0 (until_close ms)) /\
  (~ In CLOSE ms -> t = after ans t0 ms /\ o_conn (c_out c) = true) /\
  (o_conn (c_out c) = false -> In CLOSE ms /\ o_sent (c_out c) = framed (answers ans t0 (until_close ms))).
Proof.
  intros t0 es ms rest E F N. pose proof (conn_spec loads dumps error proceed obs Hobs t0 es ms rest E F N) as K. unfold conn_ok in K.
  destruct (answers_ext _ _ (answer_reply loads dumps error proceed) (until_close ms) t0) as [X1 _]. destruct (answers_ext _ _ (answer_reply loads dumps error proceed) ms t0) as [_ X2]. rewrite X1, X2 in K.
  destruct (conn_run t0 es) as [t c]. destruct K as (K1 & K2 & K3). split; [exact K1|]. split.
  - intros X. destruct (K2 X) as [[K4 _] K5]. auto.
  - intros C. split.
    + destruct (in_dec (fun a b => match eqb_spec a b with ReflectT _ e => left e | ReflectF _ n => right n end) CLOSE ms) as [D|D]; [exact D|].
      destruct (K2 D) as [[X _] _]. congruence.
    + unfold unsent in K1. rewrite C, app_nil_r in K1. exact K1.
Qed.

(** Each stream of bytes can be read in one way only, and each can be read. *)
Theorem C38_unambiguous : forall ms ms' r r',
  Forall (fun m => ~ has_end m) ms -> Forall (fun m => ~ has_end m) ms' -> ~ has_end r -> ~ has_end r' ->
  framed ms ++ r = framed ms' ++ r' -> ms = ms' /\ r = r'.
Proof. exact framed_unique. Qed.
Theorem C38_readable : forall s, exists ms r, s = framed ms ++ r /\ Forall (fun m => ~ has_end m) ms /\ ~ has_end r.
Proof.
  intros s. destruct (read_loop (S (length s)) s []) as [[b' parts'] ms'] eqn:RL. apply read_loop_spec in RL as (R1 & R2 & R3 & R4); [|lia|apply safe_nil].
  exists ms', (concat parts' ++ b'). split; [exact R1|]. split; [exact R2|now apply safe_no_end].
Qed.
(** Hence the chunks do not matter: the same bytes give the same answers and the same state. *)
Theorem C38_chunks_irrelevant : forall t0 es es', chunks_in es = chunks_in es' ->
  let '(t, c) := conn_run t0 es in let '(t', c') := conn_run t0 es' in
  o_sent (c_out c) ++ unsent (c_out c) = o_sent (c_out c') ++ unsent (c_out c') /\
  ((forall a b, chunks_in es <> a ++ CLOSE ++ END ++ b) -> t = t').
Proof.
  intros t0 es es' E. destruct (C38_readable (chunks_in es)) as (ms & r & Er & F & N).
  pose proof (C38_any_chunking t0 es ms r Er F N) as A. pose proof Er as Er'. rewrite E in Er'. pose proof (C38_any_chunking t0 es' ms r Er' F N) as A'.
  destruct (conn_run t0 es) as [t c], (conn_run t0 es') as [t' c']. destruct A as (A & B & _), A' as (A' & B' & _). split; [congruence|]. intros X.
  assert (NC : ~ In CLOSE ms).
  { intros I. apply in_split in I as (l1 & l2 & ->). rewrite framed_app, framed_cons, <- !app_assoc in Er. exact (X _ _ Er). }
  destruct (B NC) as [-> _], (B' NC) as [-> _]. reflexivity.
Qed.

(** C38: if the socket goes on taking bytes, all answers get out, and the connection is closed
    then exactly if a close command was received. *)
Theorem C38_delivered : forall t0 es ms rest,
  chunks_in es = framed ms ++ rest -> Forall (fun m => ~ has_end m) ms -> ~ has_end rest ->
  exists n, forall ks, Forall (fun k => 0 < k)%nat ks -> (n <= length ks)%nat ->
    let o := c_out (snd (conn_run t0 (es ++ map Writable ks))) in
    o_sent o = framed (answers ans t0 (until_close ms)) /\ (o_conn o = false <-> In CLOSE ms).
Proof.
  intros t0 es ms rest E F N. destruct (delivered loads dumps error proceed obs Hobs t0 es ms rest E F N) as [n H].
  destruct (answers_ext _ _ (answer_reply loads dumps error proceed) (until_close ms) t0) as [X1 _]. rewrite X1 in H. exists n. exact H.
Qed.

(** C38: one request of the client and its answer. *)
Theorem C38_exchange : forall (dumpq : Q -> bytes) (loadr : bytes -> option R) t0 q es chunks,
  (forall m, loads (dumpq m) = Some m) -> (forall r d x, dumps r = Some d -> loadr (d ++ x) = Some r) ->
  (forall m, ~ has_end (dumpq m)) -> (forall r d, dumps r = Some d -> ~ has_end d) -> dumpq q <> CLOSE ->
  chunks_in es = client_send (dumpq q) (length (dumpq q)) ->
  unsent (c_out (snd (conn_run t0 es))) = [] -> concat chunks = o_sent (c_out (snd (conn_run t0 es))) -> Forall (fun c => c <> []) chunks ->
  dumps (snd (proceed t0 q)) <> None ->
  fst (conn_run t0 es) = fst (proceed t0 q) /\ exists m, receive chunks [] = Got m /\ loadr m = Some (snd (proceed t0 q)).
Proof.
  intros dumpq loadr t0 q es chunks HQ HR NQ NR NC E U Ec Fc HD. unfold client_send in E. rewrite firstn_all in E.
  assert (E' : chunks_in es = framed [dumpq q] ++ []) by (rewrite E; unfold framed; cbn; now rewrite !app_nil_r).
  assert (Ne : ~ has_end []) by (intros (a & b & X); destruct a; discriminate).
  pose proof (C38_any_chunking t0 es [dumpq q] [] E' ltac:(repeat constructor; apply NQ) Ne) as A.
  destruct (conn_run t0 es) as [t c]. cbn [fst snd] in *. destruct A as (A1 & A2 & _). rewrite U, app_nil_r in A1. cbn [until_close] in A1.
  destruct (eqb_spec (dumpq q) CLOSE); [contradiction|]. cbn [until_close answers after] in *. unfold reply in *. cbn [fst snd] in *. rewrite HQ in *. destruct (proceed t0 q) as [t1 r] eqn:P. cbn [fst snd] in *.
  destruct A2 as [-> _]; [intros [X|[]]; congruence|]. split; [reflexivity|].
  destruct (dumps r) as [d|] eqn:D; [|congruence]. unfold framed in A1. cbn in A1. rewrite app_nil_r in A1. rewrite A1 in Ec.
  destruct (receive_whole d (NR r d D) chunks [] Fc Ec) as [X|X]; rewrite X; eexists; split; try reflexivity; [|now apply HR]. rewrite <- (app_nil_r d). now apply HR.
Qed.
End Props.

(** C38: the client gets the answer whole, however it is cut; before the end it waits; if the
    server goes away before the end it gets an error, never a part of the answer. *)
Theorem C38_client_whole : forall p chunks, ~ has_end p -> Forall (fun c => c <> []) chunks -> concat chunks = p ++ END ->
  receive chunks [] = Got p \/ receive chunks [] = Got (p ++ END).
Proof. intros p chunks N F E. now apply receive_whole. Qed.
Theorem C38_client_part : forall p chunks x, ~ has_end p -> Forall (fun c => c <> []) chunks -> x <> [] -> concat chunks ++ x = p ++ END ->
  receive chunks [] = Waiting /\ receive (chunks ++ [[]]) [] = Reset.
Proof. intros p chunks x N F X E. now apply (receive_part p N chunks [] x). Qed.

(** A concrete server: the messages are texts, the answer is the number of bytes so far. *)
Definition demo_ans := fun (t : nat) (m : bytes) => ((t + length m)%nat, m ++ tx "!").
Definition demo_run := @conn_run nat bytes bytes (fun m => Some m) (fun r => Some r) (fun m => m) demo_ans 4.
Example C38_demo :
  let es := [Recv (tx "ab<F2B_E") [3%nat]; Writable 1; Recv (tx "ND_COMMAND>c<F2B_") []; Recv (tx "x<F2B_END_COMMAND><F2B_CLO") [2%nat;1%nat];
             Recv (tx "SE_COMMAND><F2B_END_COMMAND>zz<F2B_END_COMMAND>rest") []] in
  chunks_in es = framed [tx "ab"; tx "c<F2B_x"; CLOSE; tx "zz"] ++ tx "rest" /\
  o_sent (c_out (snd (demo_run 0 (es ++ map Writable (repeat 9%nat 30))))) = framed [tx "ab!"; tx "c<F2B_x!"] /\
  o_conn (c_out (snd (demo_run 0 (es ++ map Writable (repeat 9%nat 30))))) = false.
Proof. cbv zeta. calc. Qed.
Example C38_demo_no_end : ~ has_end (tx "c<F2B_x") /\ has_end (tx "a<F2B_END_COMMAND>b").
Proof.
  split; [intros H; apply find_has_end in H as [i H]; vm_compute in H; discriminate|exists (tx "a"), (tx "b"); vm_compute; reflexivity].
Qed.
Example C38_demo_client :
  receive [tx "ans"; tx "wer<F2B_"; tx "END_COMMAND>"] [] = Got (tx "answer" ++ END) /\ receive [tx "answer"; END] [] = Got (tx "answer") /\
  receive [tx "ans"; tx "wer<F2B_"] [] = Waiting /\ receive [tx "ans"; tx "wer<F2B_"; []] [] = Reset.
Proof. calc. Qed.

(** A request that has the terminator in it (a ban with such a text, say) is two requests. *)
Theorem C38_embedded_refuted : exists m es, chunks_in es = client_send m (length m) /\
  o_sent (c_out (snd (demo_run 0 es))) ++ unsent (c_out (snd (demo_run 0 es))) = framed [tx "a!"; tx "b!"] /\ m <> tx "a".
Proof.
  exists (tx "a" ++ END ++ tx "b"), [Recv (tx "a" ++ END ++ tx "b" ++ END) []]. split; [vm_compute; reflexivity|]. split; [vm_compute; reflexivity|discriminate].
Qed.
(** The client does not look how many bytes send() took: a part of the request then reaches the
    server as a whole request. *)
Theorem C38_short_send_refuted : exists m k es, ~ has_end m /\ chunks_in es = client_send m k /\
  o_sent (c_out (snd (demo_run 0 es))) ++ unsent (c_out (snd (demo_run 0 es))) = framed [tx "uni!"] /\ m <> tx "uni".
Proof.
  exists (tx "unimportant"), 3%nat, [Recv (tx "uni" ++ END) []]. split; [intros H; apply find_has_end in H as [i H]; vm_compute in H; discriminate|].
  split; [vm_compute; reflexivity|]. split; [vm_compute; reflexivity|discriminate].
Qed.

(** Requests behind the close command are still executed, but never answered. *)
Theorem C38_after_close_refuted : exists es, chunks_in es = framed [tx "a"; CLOSE; tx "bcd"] /\
  fst (demo_run 0 es) = 4%nat /\ fst (demo_run 0 [Recv (framed [tx "a"]) []]) = 1%nat /\
  o_sent (c_out (snd (demo_run 0 es))) ++ unsent (c_out (snd (demo_run 0 es))) = framed [tx "a!"].
Proof. exists [Recv (framed [tx "a"; CLOSE; tx "bcd"]) []]. calc. Qed.

Print Assumptions C38_any_chunking.
Print Assumptions C38_unambiguous.
Print Assumptions C38_readable.
Print Assumptions C38_chunks_irrelevant.
Print Assumptions C38_delivered.
Print Assumptions C38_exchange.
Print Assumptions C38_client_whole.
Print Assumptions C38_client_part.
Print Assumptions C38_demo.
Print Assumptions C38_demo_client.
Print Assumptions C38_embedded_refuted.
Print Assumptions C38_short_send_refuted.
Print Assumptions C38_after_close_refuted.
