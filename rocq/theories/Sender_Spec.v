(** Specification vocabulary for the sender of test packets (C33-C35, C62). *)
From Coq Require Import ZArith List Bool.
From Verif Require Import Base Arith_Model Time_Model Wire_Model Wire_Spec Sender_Model.
Import ListNotations.
Open Scope Z_scope.

(** a point in time in nanoseconds *)
Definition ns (t : tspec) : Z := fst t * 10^9 + snd t.
(** a fixed-point number of seconds (32 fraction bits) in whole nanoseconds *)
Definition ns_of (x : Z) : Z := x * 10^9 / 2^32.
(** what the operating system reports: nanoseconds below one second *)
Definition clock_ok (t : tspec) : Prop := 0 <= fst t < 2^32 /\ 0 <= snd t < 10^9.

(** offset of packet n from the start of the session: the sum of the first n+1 delays *)
Fixpoint total (delta : nat -> Z) (n : nat) : Z :=
  match n with O => delta O | S m => total delta m + delta (S m) end.
(** scheduled time of packet n, in nanoseconds *)
Definition due (start : tspec) (delta : nat -> Z) (n : Z) : Z :=
  ns start + ns_of (total delta (Z.to_nat n) mod 2^64).

(** the sender's report: next sequence number, number of skip ranges, the k-th range *)
Definition rep_next (file : list Z) : Z := field file 0 4.
Definition rep_count (file : list Z) : Z := field file 4 4.
Definition rep_begin (file : list Z) (k : nat) : Z := field file (8 + 8 * k) 4.
Definition rep_end (file : list Z) (k : nat) : Z := field file (12 + 8 * k) 4.
Definition in_range (file : list Z) (k : nat) (seq : Z) : Prop :=
  Z.of_nat k < rep_count file /\ rep_begin file k <= seq <= rep_end file k.

(** number of times packet [seq] was handed to the network and accepted; and the same including
    the attempts whose failure the sender ignores *)
Definition is_sent (seq : Z) (ignored : bool) (e : sevent) : bool :=
  match e with
  | EvSend s _ _ _ SendOK => s =? seq
  | EvSend s _ _ _ SendOther => (s =? seq) && ignored
  | _ => false
  end.
Definition transmissions (seq : Z) (log : list sevent) : nat := length (filter (is_sent seq false) log).
Definition attempts (seq : Z) (log : list sevent) : nat := length (filter (is_sent seq true) log).

(** the environment's clock is sane in every step *)
Definition clocks_ok (es : list senv) : Prop :=
  Forall (fun e => match se_clock e with Some (t, _, _) => clock_ok t | None => True end) es.
