(** Vocabulary for the statements about the process that serves a connection *)
From Coq Require Import ZArith List Bool.
From Verif Require Import Base Conn_Model.
Import ListNotations.
Open Scope Z_scope.

Inductive reached (twamp : bool) (timeout : Z) (allowed : state -> event -> Prop) : state -> Prop :=
| start : reached twamp timeout allowed init
| next : forall s e s', reached twamp timeout allowed s -> allowed s e -> step twamp timeout s e = Some s' -> reached twamp timeout allowed s'.

Definition any (s : state) (e : event) : Prop := True.

(** the process needs the client to go on *)
Definition awaits_client (p : point) : Prop := match p with Reading | Processing _ | Trading | Stopping => True | _ => False end.
(** the process waits for the sessions to end *)
Definition awaits_sessions (p : point) : Prop := match p with Waiting => True | _ => False end.

(** the timer does not expire in the moment between its start and the system call that waits *)
Definition punctual (s : state) (e : event) : Prop := match e, pt s with Alarm, Enter => False | _, _ => True end.

Definition from_client (e : event) : Prop := match e with Message _ | Bad | Close | Input | Answered _ => True | _ => False end.
Definition signal (e : event) : Prop := match e with Term | Int | Chld => True | _ => False end.

Definition requests (l : list event) : nat := length (filter (fun e => match e with Message _ => true | _ => false end) l).
