(** Property theorems C06-C10, C59: send schedules.  [E] is the block cipher (any function from
    key and 16-octet block to 16 octets), [octets] = all elements in 0..255. *)
From Coq Require Import ZArith List Bool Lia.
From Verif Require Import Base Arith_Model Sched_Model Sched_Spec Sched_Proofs.
Import ListNotations.
Open Scope Z_scope.

(** A toy "cipher" used only in the examples. *)
Definition toyE (k b : list Z) : list Z :=
  map (fun i => (nth i k 0 * 167 + nth i b 0 * 59 + nth 15 b 0 * 101 * (Z.of_nat i + 1) + 77) mod 256)
      (seq 0 16).
Example toyE_is_admissible : (forall k b, length (toyE k b) = 16%nat) /\ (forall k b, octets (toyE k b)).
Proof.
  split; intros; unfold toyE; [rewrite map_length; apply seq_length|].
  apply Forall_map, Forall_forall. intros. apply Z.mod_pos_bound. lia.
Qed.
Definition toysid : list Z := [40;114;151;147;3;171;71;238;172;2;141;171;56;41;218;178].

(** C06: two contexts created from equal SID and spec give equal delays (whatever else happens in
    between they share no state), and re-setting a context after any number of draws restarts the
    same sequence. *)
Theorem C06_reset_replays : forall E sid t c n ds c' m,
  sched_create sid t = Some c -> next_deltas E n c = (ds, c') ->
  exists c'', sched_reset c' None = (c'', true) /\
    fst (next_deltas E m c'') = fst (next_deltas E m c).
Proof.
  intros E sid t c n ds c' m Hc Hn. exists c. split; auto. eapply reset_restart; eauto.
Qed.
Print Assumptions C06_reset_replays.

Theorem C06_reset_to_new_spec_equals_fresh_context : forall E c sid t c2 m,
  sched_create sid t = Some c2 ->
  exists c'', sched_reset c (Some (sid, t)) = (c'', true) /\
    fst (next_deltas E m c'') = fst (next_deltas E m c2).
Proof. intros. exists c2. split; auto. eapply reset_as_create; eauto. Qed.
Print Assumptions C06_reset_to_new_spec_equals_fresh_context.

(** The whole schedule is determined by SID, slots and nothing else: it is the schedule of the
    specification over the counter-mode stream of the SID. Two parties holding the same SID and
    slots therefore agree on every delay. *)
Theorem C06_sender_and_receiver_agree : forall E sid t1 t2 c1 c2 slots n,
  sched_create sid t1 = Some c1 -> sched_create sid t2 = Some c2 ->
  sp_slots t1 = Some slots -> sp_slots t2 = Some slots -> Forall slot_ok slots ->
  0 <= sp_npackets t1 < 2^32 -> 0 <= sp_npackets t2 < 2^32 ->
  Z.of_nat n <= sp_npackets t1 -> Z.of_nat n <= sp_npackets t2 ->
  (forall k b, length (E k b) = 16%nat) -> (forall k b, octets (E k b)) ->
  fst (next_deltas E n c1) = fst (next_deltas E n c2).
Proof. exact parties_agree. Qed.
Print Assumptions C06_sender_and_receiver_agree.

Example C06_example :
  let t := mkSpec (Some [SlotExp (2^31); SlotLit 12345]) 5 in
  exists c ds c', sched_create toysid t = Some c /\ next_deltas toyE 5 c = (map Delta ds, c') /\
    NoDup (firstn 2 ds) /\ sched_reset c' None = (c, true).
Proof.
  eexists _, [_;_;_;_;_], _. split; [vm_compute; reflexivity|].
  split; [vm_compute; reflexivity|].
  split; [|vm_compute; reflexivity]. cbn [firstn].
  repeat constructor; cbn; intuition discriminate.
Qed.

(** C07: for every context that creation accepts, the first n <= npackets delays are those of the
    specification: slots in rotation (i mod number of slots in the test spec), a literal slot
    gives its offset, an exponential one its mean times the next deviate. *)
Theorem C07_slots_in_rotation : forall E sid t c slots n,
  (forall k b, length (E k b) = 16%nat) -> (forall k b, octets (E k b)) ->
  sched_create sid t = Some c -> sp_slots t = Some slots ->
  Forall slot_ok slots -> 0 <= sp_npackets t < 2^32 -> Z.of_nat n <= sp_npackets t ->
  exists ds c' p, next_deltas E n c = (map Delta ds, c') /\
    is_schedule (ctr_word E sid) (map slot_view slots) 0 0 ds p.
Proof. intros. eapply create_schedule; eauto. Qed.
Print Assumptions C07_slots_in_rotation.

Theorem C07_creation_accepts_valid_slots : forall sid slots np,
  slots <> [] -> Forall slot_ok slots ->
  exists c, sched_create sid (mkSpec (Some slots) np) = Some c.
Proof. exact create_accepts. Qed.
Print Assumptions C07_creation_accepts_valid_slots.

(** more slots than packets: only the first ones are used, and none outside of the array *)
Example C07_example :
  exists c, sched_create toysid (mkSpec (Some [SlotLit 10; SlotLit 20; SlotLit 30]) 2) = Some c /\
    fst (next_deltas toyE 2 c) = [Delta 10; Delta 20] /\
  exists c2, sched_create toysid (mkSpec (Some [SlotLit 10; SlotLit 20; SlotLit 30]) 7) = Some c2 /\
    fst (next_deltas toyE 7 c2) = map Delta [10;20;30;10;20;30;10].
Proof. eexists. split; [reflexivity|]. split; [reflexivity|]. eexists. split; reflexivity. Qed.

(** C08: Algorithm S, for every source of 32-bit words. *)
Theorem C08_exponential_deviate : forall (St : Type) (draw : St -> Z * St) (s : St),
  let after n := Nat.iter n (fun s => snd (draw s)) s in
  let w n := fst (draw (after n)) in
  (forall n, 0 <= w n < 2^32) ->
  exists X m, exp_next draw s = (X, after m) /\ is_deviate w X m /\
    0 <= X <= 32 * spec_ln2 /\ (1 <= m <= 12)%nat.
Proof. exact exp_next_any. Qed.
Print Assumptions C08_exponential_deviate.

Theorem C08_deviate_is_unique : forall w X m X' m',
  is_deviate w X m -> is_deviate w X' m' -> X = X' /\ m = m'.
Proof. exact deviate_unique. Qed.
Print Assumptions C08_deviate_is_unique.

(** the rare cases: all-ones word gives 32 ln2; a word whose tail needs the last table entry *)
Example C08_example :
  fst (exp_next (fun s : nat => (0xFFFFFFFF, S s)) 0%nat) = 32 * 0xB17217F8 /\
  exp_next (fun s : nat => (nth s [0x7FFFFFFF; 9;8;7;6;5;4;3;2;9;9;9] 0, S s)) 0%nat
   = ((0 * 2^32 + 2) * 0xB17217F8 / 2^32, 12%nat).
Proof. split; vm_compute; reflexivity. Qed.

(** C09: counter mode. *)
Theorem C09_uniform_stream_is_counter_mode : forall E,
  (forall k b, length (E k b) = 16%nat) -> (forall k b, octets (E k b)) ->
  forall sid n,
  fst (unif_rand E (Nat.iter n (fun e => snd (unif_rand E e)) (zero_exp sid))) = ctr_word E sid n.
Proof. intros E El Eo. exact (unif_stream E El Eo). Qed.
Print Assumptions C09_uniform_stream_is_counter_mode.

(** carry over two octets: word 65536 comes from block [0,...,0,1,0,0] *)
Example C09_example :
  incr_counter (zeros 13 ++ [0;255;255]) = zeros 13 ++ [1;0;0] /\
  ctr_word toyE toysid 6 = word_of (sub 8 4 (toyE toysid (zeros 15 ++ [4]))) /\
  ctr_word toyE toysid 6 <> ctr_word toyE toysid 7.
Proof. split; [reflexivity|]. split; [vm_compute; reflexivity|]. vm_compute. discriminate. Qed.

(** C10: the value returned by an exhausted schedule can also be the delay of a packet. *)
Theorem C10_exhaustion_detectable_refuted : forall E, exists sid t c v c1 c2,
  sched_create sid t = Some c /\
  next_delta E c = (Delta v, c1) /\           (* packet 0 of a one-packet session *)
  next_delta E c1 = (Delta v, c2) /\          (* one call too many *)
  sp_npackets t = 1.
Proof.
  intros E. exists (zeros 16), (mkSpec (Some [SlotLit 3]) 1).
  eexists _, _, _, _. repeat split; reflexivity.
Qed.
Print Assumptions C10_exhaustion_detectable_refuted.

(** what holds: an exhausted context always returns 3/2^32 s and never changes again *)
Theorem C10_exhausted_value_partial : forall E sid t c n ds c',
  (forall k b, length (E k b) = 16%nat) -> (forall k b, octets (E k b)) ->
  sched_create sid t = Some c -> (exists slots, sp_slots t = Some slots /\ Forall slot_ok slots) ->
  0 <= sp_npackets t < 2^32 -> Z.of_nat n = sp_npackets t ->
  next_deltas E n c = (ds, c') -> next_delta E c' = (Delta 3, c').
Proof.
  intros E sid t c n ds c' El Eo Hc (slots & Hs & Hok) Hnp Hn Hd.
  destruct (create_inv E sid t c Hc) as (sl & Hs' & Hne & _ & HI).
  assert (sl = slots) by congruence. subst sl.
  destruct (next_deltas_spec E El Eo n sid slots (sp_npackets t) 0 0 c) as (ds' & c'' & p' & Ed & HI' & _);
    auto; [lia|].
  rewrite Hd in Ed. inversion Ed; subst. destruct HI' as (_ & Hi & Hm & _).
  unfold next_delta. rewrite Hi, Hm. destruct (Z.leb_spec (sp_npackets t) (Z.of_nat (0 + n))); [reflexivity|lia].
Qed.
Print Assumptions C10_exhausted_value_partial.

(** C59: a spec accepted by reset can always be drawn from.  Refuted: reset does not check for an
    empty slot list; the next draw divides by zero. *)
Theorem C59_reset_spec_usable_refuted : forall E, exists c sid t c',
  sched_create sid (mkSpec (Some [SlotLit 7]) 4) = Some c /\
  sched_reset c (Some (sid, t)) = (c', true) /\ 0 < sp_npackets t /\
  fst (next_delta E c') = DeltaUB.
Proof.
  intros E. eexists _, (zeros 16), (mkSpec (Some []) 4), _. repeat split; reflexivity.
Qed.
Print Assumptions C59_reset_spec_usable_refuted.

(** what holds: with at least one slot reset behaves like creation, so by C07 it never fails. *)
Theorem C59_reset_nonempty_partial : forall E c sid slots np c' n,
  (forall k b, length (E k b) = 16%nat) -> (forall k b, octets (E k b)) ->
  slots <> [] -> Forall slot_ok slots -> 0 <= np < 2^32 -> Z.of_nat n <= np ->
  sched_reset c (Some (sid, mkSpec (Some slots) np)) = (c', true) ->
  exists ds c'', next_deltas E n c' = (map Delta ds, c'').
Proof.
  intros E c sid slots np c' n El Eo Hne Hok Hnp Hn Hr.
  destruct (create_accepts sid slots np Hne Hok) as (c2 & Hc2).
  rewrite (reset_as_create c sid _ c2 Hc2) in Hr. inversion Hr; subst c2.
  destruct (create_schedule E El Eo sid _ c' slots n Hc2) as (ds & c'' & p & Ed & _); auto. eauto.
Qed.
Print Assumptions C59_reset_nonempty_partial.
