(** Vocabulary for the statements about reports *)
From Coq Require Import ZArith List Bool String.
From Verif Require Import Options_Spec.
Import ListNotations.
Open Scope Z_scope.

(** the list of ranges cuts the numbers from [a] to [b] (excluded) into pieces of [n], the last of which may be shorter *)
Fixpoint pieces (n a b : Z) (l : list (Z * Z)) : Prop :=
  match l with
  | [] => False
  | [(x, y)] => x = a /\ y = b /\ 0 < b - a <= n
  | (x, y) :: r => x = a /\ y = a + n /\ pieces n y b r
  end.
(** number of ranges that hold [q] *)
Definition covers (q : Z) (l : list (Z * Z)) : nat := List.length (filter (fun r => (fst r <=? q) && (q <? snd r)) l).

(** number of samples in buckets up to [b] *)
Definition up_to (b : Z) (h : list (Z * Z)) : Z := fold_right (fun x n => (if fst x <=? b then snd x else 0) + n) 0 h.

(** what decimal digits behind the point of seconds say, in nanoseconds (up to nine digits) *)
Fixpoint decimals (unit : Z) (digits : list Z) : Z := match digits with [] => 0 | d :: r => d * unit + decimals (unit / 10) r end.
Definition nanoseconds (digits : list Z) : Z := decimals 100000000 digits.

(** owamp/doc/owping_out_opts.man 117-125: the units, how many of them make a second, how they are written *)
Definition units : list (string * Z * string) :=
  [("n", 1000000000, "ns"); ("u", 1000000, "us"); ("m", 1000, "ms"); ("s", 1, "s")]%string.
