(** Specification vocabulary for connection set-up. *)
From Coq Require Import ZArith List Bool.
From Verif Require Import Base Sched_Model Wire_Model Wire_Spec Control_Model Control_Spec.
Import ListNotations.
Open Scope Z_scope.

(** octets arrive at a connection *)
Definition feed (c : ctl) (o : list Z) : ctl := set_inp c (inp c ++ o) (io c).

(** The four modes from weakest to strongest: unauthenticated, mixed (control connection
    authenticated and encrypted, tests open), authenticated, encrypted. *)
Definition strength (m : Z) : nat :=
  if m =? 1 then 1 else if m =? 8 then 2 else if m =? 2 then 3 else if m =? 4 then 4 else 0.
Definition single_mode (m : Z) : Prop := m = 1 \/ m = 2 \/ m = 4 \/ m = 8.
(** set membership for modes *)
Definition contains (set m : Z) : Prop := Z.land set m = m.

(** modes that could be used: single, offered, wanted, with a key if one is needed, and mixed mode
    only on two-way connections *)
Definition usable (offered wanted : Z) (haskey twoway : bool) (m : Z) : Prop :=
  single_mode m /\ contains offered m /\ contains wanted m /\ (m <> 1 -> haskey = true) /\ (m = 8 -> twoway = true).

(** a freshly created connection *)
Definition fresh (c : ctl) : Prop :=
  wf c /\ quiet c /\ st c = 0 /\ inp c = [] /\ outp c = [] /\ shm c = [] /\ rhm c = [].
