(** What the strings accepted as port ranges look like, independently of the parser. *)
From Coq Require Import ZArith List.
Import ListNotations.
Open Scope Z_scope.

Definition digit_string (s : list Z) : Prop := s <> [] /\ Forall (fun c => 48 <= c <= 57) s.
Definition space_string (s : list Z) : Prop := Forall (fun c => 9 <= c <= 13 \/ c = 32) s.
Fixpoint value_from (acc : Z) (s : list Z) : Z := match s with c :: r => value_from (10 * acc + (c - 48)) r | [] => acc end.
Definition value (s : list Z) : Z := value_from 0 s.
(** does not begin with a digit *)
Definition no_digit (s : list Z) : Prop := match s with c :: _ => ~ (48 <= c <= 57) | [] => True end.

(** optional sign *)
Definition sign_string (s : list Z) (neg : bool) : Prop := s = [] /\ neg = false \/ s = [43] /\ neg = false \/ s = [45] /\ neg = true.

