(** Specification vocabulary for the statistics of one-way sessions (C44-C47).  A history is the list
    of records in file order. *)
From Coq Require Import ZArith List Bool.
From Verif Require Import Base Time_Model Wire_Model Wire_Spec Sender_Spec Receiver_Spec.
Import ListNotations.
Open Scope Z_scope.

(** the records that count: in the range, of packets the sender has not declared as not sent *)
Definition not_sent (skips : list skiprec) (q : Z) : bool := existsb (fun s => (sk_begin s <=? q) && (q <=? sk_end s)) skips.
Definition in_range (first last : Z) (r : datarec) : bool := (first <=? r_seq r) && (r_seq r <? last).
Definition relevant (first last : Z) (skips : list skiprec) (recs : list datarec) : list datarec :=
  filter (fun r => in_range first last r && negb (not_sent skips (r_seq r))) recs.
Definition lost (recs : list datarec) : list datarec := filter is_lost recs.
Definition arrived (recs : list datarec) : list datarec := filter (fun r => negb (is_lost r)) recs.

(** number of different packets *)
Definition distinct (recs : list datarec) : Z := Z.of_nat (length (nodup Z.eq_dec (map r_seq recs))).

(** the first record of every packet *)
Fixpoint first_copies (before : list Z) (recs : list datarec) : list datarec :=
  match recs with
  | [] => []
  | r :: t => if in_dec Z.eq_dec (r_seq r) before then first_copies before t else r :: first_copies (r_seq r :: before) t
  end.

(** n-reordering: [x] arrives directly behind [n] packets which all have larger numbers; [prev]: what
    arrived before, latest first *)
Definition behind_larger (n : nat) (x : Z) (prev : list Z) : bool := (n <=? length prev)%nat && forallb (fun y => x <? y) (firstn n prev).
Fixpoint reordered_from (n : nat) (prev l : list Z) : Z :=
  match l with [] => 0 | x :: t => (if behind_larger n x prev then 1 else 0) + reordered_from n (x :: prev) t end.
Definition reordered (n : nat) (l : list Z) : Z := reordered_from n [] l.

(** both time stamps of a received packet, the receive time stamp of a lost one, are of synchronized clocks *)
Definition synced (r : datarec) : bool := negb (sync (r_recv r) =? 0) && (is_lost r || negb (sync (r_send r) =? 0)).

(** number of samples of a bucket *)
Definition samples (h : list (Z * Z)) (b : Z) : Z := fold_right (fun x n => (if fst x =? b then snd x else 0) + n) 0 h.

(** The records of a session as the receiver writes them: a packet is either lost, once, or received;
    after a lost packet only packets with larger numbers follow, and after a packet received at time t
    (including itself) none that was scheduled more than the timeout before t. *)
Definition chronicle (start timeout : Z) (delta : nat -> Z) (recs : list datarec) : Prop :=
  (forall q, (lost_of q recs <= 1)%nat /\ (lost_of q recs = 0 \/ received_of q recs = 0)%nat) /\
  (forall i j r s, (i <= j)%nat -> nth_error recs i = Some r -> nth_error recs j = Some s ->
     if is_lost r then r_seq r <= r_seq s
     else (owptime (r_recv r) - timeout) mod 2^64 <= sched_stamp start delta (r_seq s)).

(** the schedule does not run over the end of the 2^32 seconds that can be expressed *)
Definition no_wrap (start npackets : Z) (delta : nat -> Z) : Prop :=
  0 <= start /\ (forall n, 0 <= delta n) /\ start + total delta (Z.to_nat (npackets - 1)) < 2^64.

(** position in the history of the first record with a number not below [last] *)
Fixpoint first_from (last : Z) (recs : list datarec) : option nat :=
  match recs with [] => None | r :: t => if last <=? r_seq r then Some O else option_map S (first_from last t) end.
(** number of records with a property *)
Definition count (f : datarec -> bool) (recs : list datarec) : Z := Z.of_nat (length (filter f recs)).
