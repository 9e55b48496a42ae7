(** Properties C34 (cache) and C49 (waiting with a time-out). *)
From Verif Require Import Base Utils_Model Utils_Spec Utils_Proofs.
From Coq Require Import ZifyBool ZifyNat.

(** ** C34.  The cache answers only with what was stored last for the key and is younger than the
    time to live, and it holds no more than the maximum. *)

Definition fresh {V} (max : nat) (ttl : Z) : cache V := mkCache [] max ttl.

(** Whatever the history, the clock and the changes of the options. *)
Theorem C34_get_sound {V} : forall max ttl (ops : list (ca_op V)) t k v,
  snd (ca_get (ca_run (fresh max ttl) ops) t k) = Some v ->
  exists e, stored k ttl ops None = Some (v, e) /\ t < e.
Proof.
  intros max ttl ops t k v H. unfold ca_get in H.
  destruct (dget k (ca_list (ca_run (fresh max ttl) ops))) as [[v' e]|] eqn:E; [|discriminate].
  destruct (Z.gtb_spec e t) as [L|L]; [|discriminate]. cbn in H. injection H as ->. exists e. split; [|lia].
  apply (held_run k ops (fresh max ttl)); [apply dwf_nil|discriminate|exact E].
Qed.

(** While the keys in use are fewer than the maximum nothing is lost: the answer is exactly the
    stored value until it expires. *)
Theorem C34_get_exact {V} : forall ks max ttl (ops : list (ca_op V)) t k,
  few_keys ks ops -> (length ks < max)%nat ->
  snd (ca_get (ca_run (fresh max ttl) ops) t k)
  = match stored k ttl ops None with
    | Some (v, e) => if t <? e then Some v else None
    | None => None
    end.
Proof.
  intros ks max ttl ops t k F L. unfold ca_get.
  rewrite (kept_run ks k ops F (fresh max ttl)) by (try apply dwf_nil; cbn; tauto || exact L).
  cbn [ca_ttl ca_list fresh dget]. destruct (stored k ttl ops None) as [[v e]|]; [|reflexivity].
  rewrite Z.gtb_ltb. now destruct (t <? e).
Qed.

(** A value just stored is found, in whatever state the cache is, and expires. *)
Theorem C34_stored_found {V} : forall (c : cache V) t k v t',
  snd (ca_get (ca_set c t k v) t' k) = (if t' <? t + ca_ttl c then Some v else None).
Proof.
  intros c t k v t'. unfold ca_get, ca_set. cbn. rewrite dget_dset_same. rewrite Z.gtb_ltb. now destruct (_ <? _).
Qed.

(** Size: never above a positive maximum; and after the maximum was lowered, the next store
    restores the bound. *)
Theorem C34_size {V} : forall max ttl (ops : list (ca_op V)), fixed_options ops -> (1 <= max)%nat ->
  (length (ca_list (ca_run (fresh max ttl) ops)) <= max)%nat.
Proof. intros max ttl ops F H. apply (size_run ops F (fresh max ttl)); cbn; lia. Qed.

Theorem C34_size_after_set {V} : forall (c : cache V) t k v, (1 <= ca_max c)%nat ->
  (length (ca_list (ca_set c t k v)) <= ca_max c)%nat.
Proof. intros. now apply set_size. Qed.

(** Storing in a full cache removes, from the oldest on, the expired entries and one live entry;
    in a cache that is not full it removes nothing. *)
Theorem C34_eviction {V} : forall (c : cache V) t k v, (1 <= ca_max c)%nat ->
  (length (ca_list c) <= ca_max c)%nat ->
  exists gone rest,
    ca_list c = gone ++ rest /\
    ca_list (ca_set c t k v) = dset k (v, t + ca_ttl c) rest /\
    (if Nat.ltb (length (ca_list c)) (ca_max c) then gone = []
     else exists dead, Forall (fun kv => live t kv = false) dead /\
            ((gone = dead /\ rest = []) \/ exists x, live t x = true /\ gone = dead ++ [x])).
Proof.
  intros c t k v H L. unfold ca_set. cbn [ca_with_list ca_list]. cbv zeta.
  destruct (Nat.ltb_spec (length (ca_list c)) (ca_max c)).
  - exists [], (ca_list c). replace (Nat.leb _ _) with false by (symmetry; apply Nat.leb_gt; lia). auto.
  - replace (Nat.leb _ _) with true by (symmetry; apply Nat.leb_le; lia).
    destruct (evict_exact t (ca_max c) (ca_list c) L H) as (dead & F & [[E1 E2]|(x & Hx & E)]).
    + exists dead, []. rewrite E1, app_nil_r. repeat split; auto. exists dead. auto.
    + exists (dead ++ [x]), (evict t (ca_max c) (ca_list c)). rewrite <- app_assoc. cbn. repeat split; auto.
      exists dead. split; [exact F|]. right. exists x. auto.
Qed.

(** A maximum of zero still holds one value. *)
Theorem C34_zero_maximum_refuted : exists ops : list (ca_op Z),
  fixed_options ops /\ length (ca_list (ca_run (fresh 0 60) ops)) = 1%nat.
Proof. exists [CSet 0 "a"%string 1]. split; [repeat constructor|reflexivity]. Qed.

(** Renewing a value in a full cache throws another, live value away, although no room is needed;
    so "as many keys as the maximum" would be wrong in C34_get_exact. *)
Theorem C34_full_cache_renewal_refuted : exists ops : list (ca_op Z),
  few_keys ["a"; "b"]%string ops /\
  stored "a"%string 60 ops None = Some (1, 60) /\
  snd (ca_get (ca_run (fresh 2 60) ops) 2 "a"%string) = None.
Proof.
  exists [CSet 0 "a"%string 1; CSet 0 "b"%string 2; CSet 1 "b"%string 3].
  split; [repeat (apply Forall_cons || apply Forall_nil); cbn; auto 8|]. split; vm_compute; reflexivity.
Qed.

(** Expired entries that would make enough room do not save the next live one. *)
Theorem C34_live_evicted_refuted : exists ops : list (ca_op Z),
  length (ca_list (ca_run (fresh 2 60) ops)) = 1%nat /\
  stored "b"%string 60 ops None = Some (2, 110) /\
  snd (ca_get (ca_run (fresh 2 60) ops) 100 "b"%string) = None.
Proof.
  exists [CSet 0 "a"%string 1; CSet 50 "b"%string 2; CSet 100 "c"%string 3].
  repeat split; vm_compute; reflexivity.
Qed.

Example C34_demo :
  let ops := [CSet 0 "a"%string 1; CSet 5 "b"%string 2; CSet 6 "a"%string 7; CUnset "b"%string; CGet 9 "c"%string;
              COptions 4 10; CSet 20 "c"%string 8] in
  few_keys ["a"; "b"; "c"]%string ops /\
  snd (ca_get (ca_run (fresh 5 60) ops) 40 "a"%string) = Some 7 /\
  snd (ca_get (ca_run (fresh 5 60) ops) 66 "a"%string) = None /\
  snd (ca_get (ca_run (fresh 5 60) ops) 29 "c"%string) = Some 8 /\
  snd (ca_get (ca_run (fresh 5 60) ops) 30 "c"%string) = None /\
  snd (ca_get (ca_run (fresh 5 60) ops) 30 "b"%string) = None.
Proof. split; [repeat (apply Forall_cons || apply Forall_nil); cbn; auto 8|]. vm_compute. repeat split. Qed.

(** ** C49.  Waiting for a condition with a time-out. *)

(** The value returned is the condition's at the first call at which it held or after which the
    time was over; the pauses between the calls grow by the interval up to two seconds. *)
Theorem C49_exact : forall cond late interval n, 0 <= the_step interval -> first_stop cond late n ->
  forall fuel, (n < fuel)%nat ->
  wait_for fuel cond late interval 0 0
  = Some (cond n, S n, map (fun i => Z.min (Z.of_nat (S i) * the_step interval) 2000) (seq 0 n)).
Proof. apply wait_spec. Qed.

(** True is returned only if the condition held at the last call, false only if it never held;
    never called again after the time was over. *)
Theorem C49_sound : forall fuel cond late interval r calls sleeps,
  wait_for fuel cond late interval 0 0 = Some (r, calls, sleeps) ->
  exists last, calls = S last /\ r = cond last /\ (forall i, (i < last)%nat -> cond i = false /\ late i = false)
    /\ (r = false -> late last = true) /\ length sleeps = last.
Proof.
  intros fuel cond late interval r calls sleeps E.
  destruct (wait_sound _ _ _ _ _ _ _ _ _ E) as (m & -> & _ & -> & Hs & Hn & Hl). exists m.
  do 2 (split; [reflexivity|]). split; [|split; [|lia]].
  - intros i Hi. apply orb_false_iff, Hn. lia.
  - intros C. now rewrite C in Hs.
Qed.

(** A condition that holds at the call is answered at once: one call, no pause. *)
Theorem C49_immediate : forall cond late interval fuel, cond 0%nat = true ->
  wait_for (S fuel) cond late interval 0 0 = Some (true, 1%nat, []).
Proof. intros cond late interval fuel H. cbn. now rewrite H. Qed.

(** It ends: with a clock that passes at least the pauses, the wait for [timeout] from [start] on
    takes at most timeout/pause + 2 calls, and no pause begins after the time was over. *)
Theorem C49_ends : forall cond interval clock start timeout, 0 < the_step interval -> 0 <= timeout ->
  start <= clock 0%nat ->
  (forall i, clock i + Z.min (Z.of_nat (S i) * the_step interval) 2000 <= clock (S i)) ->
  exists n, Z.of_nat n <= timeout / Z.min (the_step interval) 2000 + 1 /\
    (forall i, (i < n)%nat -> clock i <= start + timeout) /\
    forall fuel, (n < fuel)%nat ->
      exists sleeps, wait_for fuel cond (fun i => start + timeout <? clock i) interval 0 0 = Some (cond n, S n, sleeps).
Proof.
  intros cond interval clock start timeout Hs Ht H0 Hc. set (m := Z.min (the_step interval) 2000).
  assert (0 < m) by (unfold m; lia).
  set (late := fun i => start + timeout <? clock i).
  destruct (first_ex (fun i => cond i || late i) (Z.to_nat (timeout / m + 1))) as (n & Hn & P & Q).
  - apply orb_true_iff. right. unfold late. apply Z.ltb_lt.
    pose proof (clock_grows interval clock Hs Hc (Z.to_nat (timeout / m + 1))) as G.
    pose proof (Z.div_pos timeout m Ht ltac:(lia)). rewrite Z2Nat.id in G by lia. fold m in G.
    pose proof (Z.mul_succ_div_gt timeout m ltac:(lia)). nia.
  - exists n. pose proof (Z.div_pos timeout m Ht ltac:(lia)). split; [lia|]. split.
    + intros i Hi. specialize (Q i Hi). apply orb_false_iff in Q as [_ Q]. unfold late in Q. lia.
    + intros fuel L. eexists. apply wait_spec; [lia|split; [exact P|exact Q]|exact L].
Qed.

Example C49_demo :
  first_stop (fun i => Nat.eqb i 3) (fun i => Nat.leb 5 i) 3 /\
  wait_for 10 (fun i => Nat.eqb i 3) (fun i => Nat.leb 5 i) None 0 0 = Some (true, 4%nat, [200; 400; 600]) /\
  wait_for 10 (fun i => false) (fun i => Nat.leb 4 i) (Some 700) 0 0 = Some (false, 5%nat, [700; 1400; 2000; 2000]).
Proof.
  split; [split; [reflexivity|]|vm_compute; auto]. intros i Hi. do 3 (destruct i as [|i]; [reflexivity|]). lia.
Qed.

Print Assumptions C34_get_sound.
Print Assumptions C34_get_exact.
Print Assumptions C34_stored_found.
Print Assumptions C34_size.
Print Assumptions C34_size_after_set.
Print Assumptions C34_eviction.
Print Assumptions C34_zero_maximum_refuted.
Print Assumptions C34_full_cache_renewal_refuted.
Print Assumptions C34_live_evicted_refuted.
Print Assumptions C34_demo.
Print Assumptions C49_exact.
Print Assumptions C49_sound.
Print Assumptions C49_immediate.
Print Assumptions C49_ends.
Print Assumptions C49_demo.
