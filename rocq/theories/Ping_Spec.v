(** Vocabulary for the statements about owping and owfetch *)
From Coq Require Import ZArith List Bool.
From Verif Require Import Base Ping_Model.
Import ListNotations.
Open Scope Z_scope.

(** option -A contains the letter, small or capital *)
Definition has_letter (capital : Z) (s : list Z) : Prop := In capital s \/ In (capital + 32) s.

(** the connection was made, the sessions asked for were accepted, started, and none has failed *)
Definition completed (o : ping_options) (e : environment) : Prop :=
  connects e = true /\ has_time e = true /\ (o_to o = true -> request_to e = true) /\ (o_from o = true -> open_from e = true /\ request_from e = true) /\
  starts e = true /\ 0 <= wait e /\ accept e = 0 /\ (wait e = 2 -> stop e = 0).
(** no signal, except one while the sessions run *)
Definition undisturbed (e : environment) : Prop :=
  signals e 0 = 0%nat /\ signals e 1 = 0%nat /\ signals e 2 = 0%nat /\ (signals e 3 <= 1)%nat /\ (signals e 4 <= 1)%nat.
(** something is to be printed *)
Definition prints (o : ping_options) : Prop := o_quiet o = false \/ o_raw o = true.
(** the data of the session to the remote host are fetched *)
Definition fetches (o : ping_options) : Prop := o_to o = true /\ (prints o \/ o_save_to o <> None).
