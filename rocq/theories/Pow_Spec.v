(** Vocabulary for the statements about powstream: what a log of events says *)
From Coq Require Import ZArith List Bool.
From Verif Require Import Base Sender_Spec Receiver_Spec Pow_Model.
Import ListNotations.
Open Scope Z_scope.

(** the time at which the last of [n] packets of a session is scheduled *)
Definition ends_at (delta : Z -> nat -> Z) (n : nat) (sid start : Z) : Z := sched_stamp start (delta sid) (Z.of_nat n - 1).

(** a session that was started and is not over *)
Definition runs (id : nat) (log : list event) : Prop := (exists sid start now, In (EStart id sid start now) log) /\ ~ In (EOver id) log.

(** when a session is started, those that still run end before *)
Definition apart (ends : Z -> Z -> Z) (log : list event) : Prop :=
  forall before after id sid start now, log = before ++ EStart id sid start now :: after ->
  forall id' sid' start' now', In (EStart id' sid' start' now') before -> ~ In (EOver id') before -> ends sid' start' <= start.

(** number of times the records of a session were stored *)
Definition stored (id : nat) (log : list event) : nat :=
  length (filter (fun e => match e with ESession i _ _ => Nat.eqb i id | _ => false end) log).

(** the time at which a range of packets that begins after the first [n] packets of a session begins *)
Definition stamp (delta : Z -> nat -> Z) (sid start : Z) (n : nat) : Z :=
  match n with O => start | S m => sched_stamp start (delta sid) (Z.of_nat m) end.
