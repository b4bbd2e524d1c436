(** Specification of send schedules, independent of [Sched_Model]: Knuth's Algorithm S over a
    stream of 32-bit words, AES counter mode, slot rotation (RFC 4656 section 5). *)
From Coq Require Import ZArith List Bool.
Import ListNotations.
Open Scope Z_scope.

(** ln 2 and Q[k] = sum_{i<=k} (ln 2)^i / i!, in units of 2^-32. *)
Definition spec_ln2 : Z := 0xB17217F8.
Definition spec_Q (k : nat) : Z :=
  nth k [0; 0xB17217F8; 0xEEF193F7; 0xFD271862; 0xFF9D6DD0; 0xFFF4CFD0; 0xFFFEE819; 0xFFFFE7FF;
   0xFFFFFE2B; 0xFFFFFFE0; 0xFFFFFFFE; 0xFFFFFFFF] 0.

(** [is_deviate w X m]: X is the unit exponential deviate that Algorithm S computes from the words
    w 0, w 1, ..., and exactly the first m words are used. *)
Definition is_deviate (w : nat -> Z) (X : Z) (m : nat) : Prop :=
  (** S1: j leading one bits of w 0, the next one being zero (or all 32 bits are ones) *)
  exists j : Z, 0 <= j <= 32 /\
    (forall i, 0 <= i < j -> Z.testbit (w 0%nat) (31 - i) = true) /\
    (j < 32 -> Z.testbit (w 0%nat) (31 - j) = false) /\
    (** U: the bits after that, as a binary fraction *)
    exists U : Z, U = (w 0%nat * 2 ^ (j + 1)) mod 2^32 /\
    ( (** S2 *)
      (U < spec_ln2 /\ X = j * spec_ln2 + U /\ m = 1%nat)
      \/ (** S3, S4 *)
      (spec_ln2 <= U /\
       exists k : nat, (2 <= k <= 11)%nat /\ U < spec_Q k /\
         (forall k', (2 <= k' < k)%nat -> spec_Q k' <= U) /\
         m = (1 + k)%nat /\
         exists V : Z, (exists i, (1 <= i <= k)%nat /\ V = w i) /\
           (forall i, (1 <= i <= k)%nat -> V <= w i) /\
           X = (j * 2^32 + V) * spec_ln2 / 2^32) ).

(** The stream shifted by p words. *)
Definition shift (p : nat) (w : nat -> Z) : nat -> Z := fun n => w (p + n)%nat.

(** [is_schedule w slots i p ds p']: ds are the delays of packets i, i+1, ... when p words of the
    stream w have already been used; p' words are used afterwards.  A slot is a pair
    (is-exponential, parameter); slots are used cyclically. *)
Inductive is_schedule (w : nat -> Z) (slots : list (bool * Z)) : nat -> nat -> list Z -> nat -> Prop :=
| sched_nil : forall i p, is_schedule w slots i p [] p
| sched_lit : forall i p off ds p',
    nth_error slots (i mod length slots) = Some (false, off) ->
    is_schedule w slots (S i) p ds p' ->
    is_schedule w slots i p (off :: ds) p'
| sched_exp : forall i p mean X m ds p',
    nth_error slots (i mod length slots) = Some (true, mean) ->
    is_deviate (shift p w) X m ->
    is_schedule w slots (S i) (p + m) ds p' ->
    is_schedule w slots i p ((X * mean / 2^32) mod 2^64 :: ds) p'.

(** Counter mode: the n-th 32-bit word is the (n mod 4)-th quarter of the cipher applied to the
    128-bit big-endian number n - n mod 4 (taken mod 2^128). [octs k x] = big-endian octets. *)
Fixpoint octs (k : nat) (x : Z) : list Z :=
  match k with O => [] | S k' => octs k' (x / 256) ++ [x mod 256] end.
Definition word_of (l : list Z) : Z :=
  match l with [a;b;c;d] => ((a * 256 + b) * 256 + c) * 256 + d | _ => 0 end.
Definition ctr_word (E : list Z -> list Z -> list Z) (key : list Z) (n : nat) : Z :=
  word_of (firstn 4 (skipn (4 * (n mod 4)) (E key (octs 16 (Z.of_nat (n - n mod 4) mod 2^128))))).
