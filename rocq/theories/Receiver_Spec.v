(** Specification vocabulary for the receiver of test packets (C36-C39). *)
From Coq Require Import ZArith List Bool Sorted.
From Verif Require Import Base Arith_Model Time_Model Wire_Model Wire_Spec Sender_Spec Receiver_Model.
Import ListNotations.
Open Scope Z_scope.

(** a lost record is one with receive time 0 (owamp.h, OWPIsLostRecord) *)
Definition is_lost (r : datarec) : bool := owptime (r_recv r) =? 0.
Definition lost_of (q : Z) (recs : list datarec) : nat :=
  length (filter (fun r => (r_seq r =? q) && is_lost r) recs).
Definition received_of (q : Z) (recs : list datarec) : nat :=
  length (filter (fun r => (r_seq r =? q) && negb (is_lost r)) recs).
(** exactly one of: received (perhaps repeatedly); one lost record *)
Definition classified (q : Z) (recs : list datarec) : Prop :=
  ((1 <= received_of q recs)%nat /\ lost_of q recs = 0%nat) \/ (received_of q recs = 0%nat /\ lost_of q recs = 1%nat).

(** the time stamp (64 bit, since 1900) at which packet q is scheduled, and the same in nanoseconds since 1970 *)
Definition sched_stamp (start : Z) (delta : nat -> Z) (q : Z) : Z := (start + total delta (Z.to_nat q)) mod 2^64.
Definition rdue (start : Z) (delta : nat -> Z) (q : Z) : Z :=
  ns_of ((start + total delta (Z.to_nat q) - 2208988800 * 2^32) mod 2^64).
(** the loss timeout of packet q is over at time t *)
Definition expired (start timeout : Z) (delta : nat -> Z) (q : Z) (t : tspec) : Prop :=
  rdue start delta q + ns_of timeout < ns t.

(** the scheduled times lie between 1970 and the end of the 2^32 seconds that can be expressed *)
Definition in_era (start npackets : Z) (delta : nat -> Z) : Prop :=
  2208988800 * 2^32 <= start /\ start + total delta (Z.to_nat (npackets - 1)) - 2208988800 * 2^32 < 2^64.

(** 64-bit start time, timeout and delays, 32-bit number of packets *)
Definition rsession_ok (start timeout npackets : Z) (delta : nat -> Z) : Prop :=
  0 <= start < 2^64 /\ 0 <= timeout < 2^64 /\ 0 <= npackets < 2^32 /\ forall n, 0 <= delta n < 2^64.

(** a clock reading: valid time, not the instant (in 2036) at which a 64-bit time stamp is 0, which is
    indistinguishable from the mark of a lost packet; 32-bit error estimate *)
Definition reading_ok (c : option (tspec * Z * Z)) : Prop :=
  match c with
  | Some (t, err, _) => clock_ok t /\ (fst t + 2208988800) mod 2^32 * 2^32 + snd t * 2^32 / 10^9 <> 0 /\ 0 <= err < 2^32
  | None => True
  end.
(** the last clock reading of a history *)
Definition last_clock (cl : option (tspec * Z * Z)) (es : list renv) : option (tspec * Z * Z) :=
  last (map re_clock es) cl.
(** the stop flag, once set, stays set: a flush that sees it is followed by a test that sees it *)
Definition coherent (u : option nat) (es : list renv) : Prop :=
  Forall (fun e => re_usr2 e <> None -> re_chk4 e <> CNone) es /\
  (u <> None -> match es with e :: _ => re_chk1 e <> CNone | [] => True end).

(** absolute difference *)
Definition within (d a b : Z) : Prop := - d <= a - b <= d.
