(** Vocabulary for the statements about the main process of the daemon *)
From Coq Require Import ZArith List Bool.
From Verif Require Import Base Daemon_Model.
Import ListNotations.
Open Scope Z_scope.

(** the states of a daemon with the given options, when only allowed events happen *)
Inductive reached (max dieby : Z) (allowed : state -> event -> Prop) : state -> Prop :=
| start : reached max dieby allowed init
| next : forall s e s', reached max dieby allowed s -> allowed s e -> step max dieby s e = Some s' -> reached max dieby allowed s'.

Definition any (s : state) (e : event) : Prop := True.
(** no lack of memory *)
Definition no_failure (s : state) (e : event) : Prop := match e with Alloc false | Grow false | Reaped _ false => False | _ => True end.
(** no lack of memory, and no process ends between the last waitpid of ReapChildren and its end *)
Definition timely (s : state) (e : event) : Prop := no_failure s e /\ match e, pt s with Exits _, Clear _ => False | _, _ => True end.

(** the processes that serve a connection, and those that have ended *)
Definition serving (s : state) : list Z := map fst (filter (fun p => match snd p with Runs => true | _ => false end) (procs s)).
Definition ended (s : state) : list Z := map fst (filter is_exited (procs s)).
Definition total (l : list Z) : Z := Z.of_nat (length l).

Definition forks (l : list event) : nat := length (filter (fun e => match e with Forks _ _ => true | _ => false end) l).
