(** Specification vocabulary for the clean-up of session files. *)
From Coq Require Import ZArith List Bool.
From Verif Require Import Time_Model Wire_Model Wire_Spec.
Import ListNotations.
Open Scope Z_scope.

(** a data record as stored: its 25 octets and what they mean *)
Definition item : Type := list Z * datarec.
Definition item_ok (x : item) : Prop := length (fst x) = 25%nat /\ decode_datarec 3 (fst x) = Some (snd x).

(** the file of a one-way session while it is recorded: a header of at least 152 octets that says where the
    records begin and that there are no skip records yet, followed by the records *)
Definition recorded (f header : list Z) (items : list item) : Prop :=
  f = header ++ concat (map fst items) /\
  octs_at header 0 4 = [79; 119; 65; 0] /\ field header 4 4 = 3 /\ field header 24 8 = 0 /\ field header 32 8 = Z.of_nat (length header) /\
  (152 <= length header)%nat /\ Z.of_nat (length header) < 2^62 /\
  Forall item_ok items /\ 25 * Z.of_nat (length items) < 2^32.

(** the time at which a packet was received, or given up: the wire time stamp 0 stands for a lost packet *)
Definition lost (r : datarec) : Prop := owptime (r_recv r) = 0.
Definition lostb (r : datarec) : bool := owptime (r_recv r) =? 0.
Definition settled (timeout : Z) (r : datarec) : Z := if lostb r then owptime (r_send r) + timeout else owptime (r_recv r).

(** what the protocol wants to be kept at the end of the session: packets that the sender did send (below [next])
    and that were sent at least the timeout before the session was stopped *)
Definition keep (next timeout stop : Z) (r : datarec) : bool := (r_seq r <? next) && (owptime (r_send r) + timeout <=? stop).

(** a header whose count of records is [n] *)
Definition with_count (n : nat) (header header' : list Z) : Prop :=
  length header' = length header /\ field header' 20 4 = Z.of_nat n /\
  forall i, (i < 20 \/ 24 <= i)%nat -> nth_error header' i = nth_error header i.

(** the time packet q is scheduled for: the start time plus the delays 0..q *)
Fixpoint scheduled (start : Z) (delta : nat -> Z) (q : nat) : Z :=
  match q with O => start | S k => scheduled start delta k end + delta q.

(** a plausible record of a session with this schedule: the time stamps of a packet that was received are at most the
    timeout later than the schedule allows, and not before it by more than the timeout; a lost packet carries its scheduled time *)
Definition plausible_rec (start timeout : Z) (delta : nat -> Z) (r : datarec) : Prop :=
  (lost r -> owptime (r_send r) = scheduled start delta (Z.to_nat (r_seq r))) /\
  (~ lost r -> owptime (r_send r) <= owptime (r_recv r) + timeout /\
               scheduled start delta (Z.to_nat (r_seq r)) <= owptime (r_recv r) + timeout).

(** records in the order in which they were settled *)
Fixpoint in_order (timeout : Z) (items : list item) : Prop :=
  match items with
  | [] => True
  | x :: t => (match t with [] => True | y :: _ => settled timeout (snd x) <= settled timeout (snd y) end) /\ in_order timeout t
  end.
