(** Vocabulary for the statements about privileges *)
From Coq Require Import ZArith List Bool.
From Verif Require Import Base Config_Spec Priv_Model.
Import ListNotations.
Open Scope Z_scope.

(** a process started by root *)
Definition started_by_root (c : creds) : Prop := ruid c = 0 /\ euid c = 0 /\ suid c = 0 /\ rgid c = 0 /\ egid c = 0 /\ sgid c = 0.

(** what a process can do about its ids *)
Inductive call := Seteuid (u : Z) | Setuid (u : Z) | Setegid (g : Z) | Setgid (g : Z).
Definition attempt (c : creds) (k : call) : creds :=
  match (match k with Seteuid u => seteuid true u c | Setuid u => setuid true u c | Setegid g => setegid true g c | Setgid g => setgid true g c end) with
  | Some c' => c' | None => c end.
Definition attempts (c : creds) (l : list call) : creds := fold_left attempt l c.

(** a user (group) option denotes an id: a name, or a minus sign and the number of a user (group) that there is *)
Definition denotes (db : database) (s : list Z) (id : Z) : Prop :=
  by_name db s = Some id \/ by_name db s = None /\ exists t, s = 45 :: t /\ numeral t /\ value t = id /\ id < 2 ^ 32 /\ has_id db id = true.
