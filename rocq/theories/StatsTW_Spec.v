(** Specification vocabulary for the statistics of two-way sessions (C84, C85).  A history is the list of
    records in file order; a record has the number of the packet and the number the reflector gave to its
    reply. *)
From Coq Require Import ZArith List Bool.
From Verif Require Import Base Time_Model Wire_Model Wire_Spec Sender_Spec Receiver_Spec Stats_Spec.
Import ListNotations.
Open Scope Z_scope.

Definition packet (r : twrec) : Z := r_seq (tw_sent r).
Definition reply (r : twrec) : Z := r_seq (tw_refl r).
(** no time of arrival at the reflector: the packet or its reply was lost *)
Definition no_reply (r : twrec) : bool := owptime (r_recv (tw_sent r)) =? 0.
Definition tw_range (first last : Z) (recs : list twrec) : list twrec :=
  filter (fun r => (first <=? packet r) && (packet r <? last)) recs.
Definition replies (recs : list twrec) : list twrec := filter (fun r => negb (no_reply r)) recs.
Definition unanswered (recs : list twrec) : list twrec := filter no_reply recs.

(** how many different numbers there are *)
Definition different (l : list Z) : Z := Z.of_nat (length (nodup Z.eq_dec l)).
Definition packets (recs : list twrec) : Z := different (map packet recs).
Definition reflections (recs : list twrec) : Z := different (map reply recs).

(** the first record of every packet *)
Fixpoint firsts (before : list Z) (recs : list twrec) : list twrec :=
  match recs with
  | [] => []
  | r :: t => if in_dec Z.eq_dec (packet r) before then firsts before t else r :: firsts (packet r :: before) t
  end.
(** number of records with a property *)
Definition tw_count (f : twrec -> bool) (recs : list twrec) : Z := Z.of_nat (length (filter f recs)).

(** The records of a session: a packet is either recorded as lost, once, or answered; after a lost packet
    only packets with larger numbers follow, and after the answer to a packet sent at time t none that was
    scheduled more than the timeout before t. *)
Definition tw_chronicle (start timeout : Z) (delta : nat -> Z) (recs : list twrec) : Prop :=
  (forall q, (tw_count (fun r => no_reply r && (packet r =? q)) recs <= 1) /\
     (tw_count (fun r => no_reply r && (packet r =? q)) recs = 0 \/ tw_count (fun r => negb (no_reply r) && (packet r =? q)) recs = 0)) /\
  (forall i j r s, (i <= j)%nat -> nth_error recs i = Some r -> nth_error recs j = Some s ->
     if no_reply r then packet r <= packet s
     else (owptime (r_send (tw_sent r)) - timeout) mod 2^64 <= sched_stamp start delta (packet s)).
(** the reflector numbers every reply, and never uses a number for the replies to two packets *)
Definition own_numbers (recs : list twrec) : Prop :=
  forall r s, In r (replies recs) -> In s (replies recs) -> reply r = reply s -> packet r = packet s.
(** of two replies, the one that arrives later and is not to an earlier packet does not have the smaller number *)
Definition in_step (recs : list twrec) : Prop :=
  forall i j r s, (i <= j)%nat -> nth_error (replies recs) i = Some r -> nth_error (replies recs) j = Some s ->
    packet r <= packet s -> reply r <= reply s.
