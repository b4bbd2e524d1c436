(** What the words of the properties on sizes mean.  Nothing of the model is used. *)
From Coq Require Import ZArith List.
Import ListNotations.
Open Scope Z_scope.

(** [h] octets precede the padding of a test packet of a session in mode [mode] (RFC 4656, 4.1.2): 14 in open mode (1) and
    in the mixed mode (8), 48 in authenticated (2) and encrypted (4) mode *)
Definition test_header (mode h : Z) : Prop := (mode = 1 \/ mode = 8) /\ h = 14 \/ (mode = 2 \/ mode = 4) /\ h = 48.

(** [ip] octets are the header of an IP packet of family [af]: 20 for IPv4 (2), 40 for IPv6 (10) *)
Definition ip_header (af ip : Z) : Prop := af = 2 /\ ip = 20 \/ af = 10 /\ ip = 40.

(** the [n] octets from [off] on lie in a buffer of [size] octets *)
Definition inside (size : Z) (a : Z * Z) : Prop := 0 <= fst a /\ 0 <= snd a /\ fst a + snd a <= size.

(** sum of a list *)
Definition sum_of (l : list Z) : Z := fold_right Z.add 0 l.
