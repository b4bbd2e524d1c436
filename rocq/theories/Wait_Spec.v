(** Vocabulary for the statements about waiting for sessions *)
From Coq Require Import ZArith List Bool.
From Verif Require Import Base Wait_Model.
Import ListNotations.
Open Scope Z_scope.

(** the status of a process that owamp.h 1016-1027 promises: negative while the test is not complete, then its acceptance value; a
    process that was killed counts as a failure *)
Definition outcome (k : kid) : Z := match k with Alive => -1 | Exited c => c mod 256 | Killed => 2 end.

(** the processes of some sessions *)
Definition children (tests : list session) : list nat :=
  flat_map (fun s => match s_end s with Some e => [e_child e] | None => [] end) tests.

Definition running (tests : list session) (w : world) : list nat :=
  filter (fun i => match w_kids w i with Alive => true | _ => false end) (children tests).

(** sessions whose processes were just created *)
Definition fresh (tests : list session) (w : world) : Prop :=
  NoDup (children tests) /\
  Forall (fun s => match s_end s with Some e => e_accept e = -1 /\ w_reaped w (e_child e) = false | None => True end) tests.

(** sessions as they are after any number of questions about them, whatever happened before and between *)
Inductive reached : list session -> world -> Prop :=
| R_fresh tests w : fresh tests w -> reached tests w
| R_happen tests w e : reached tests w -> reached tests (happen e w)
| R_future tests w b d : reached tests w -> reached tests (set_during d (set_between b w))
| R_status tests w sid aval b a tests' w' :
    reached tests w -> session_status tests sid aval w = (b, a, tests', w') -> reached tests' w'
| R_active tests w n a tests' w' : reached tests w -> sessions_active tests w = (n, a, tests', w') -> reached tests' w'
| R_wait tests w c wake intr rc err a tests' w' :
    reached tests w -> stop_sessions_wait c wake intr tests w = (Returns rc err, a, tests', w') -> reached tests' w'.

(** no process ends in these lists of happenings *)
Definition no_end (l : list (list happening)) : Prop :=
  Forall (Forall (fun e => match e with Ends _ _ => False | _ => True end)) l.
