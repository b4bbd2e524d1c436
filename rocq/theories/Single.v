(** Binary32 (float) rounding of non-negative numbers, as in Double.v with 24 significant bits instead of 53. *)
From Coq Require Import ZArith Bool.
From Verif Require Import Double.
Open Scope Z_scope.

(** the exponent e with 2^23 <= n/(d*2^e) < 2^24 *)
Definition b32_exp (n d : Z) : Z :=
  let e := Z.log2 n - Z.log2 d - 23 in
  if (if 0 <=? e then n <? d * 2^e * 2^23 else n * 2^(-e) <? d * 2^23) then e - 1 else e.

(** the float nearest to n/d, for n >= 0, d > 0 *)
Definition b32 (n d : Z) : Z * Z :=
  if n =? 0 then (0, 1) else
  let e := b32_exp n d in
  if 0 <=? e then (rne n (d * 2^e) * 2^e, 1) else (rne (n * 2^(-e)) d, 2^(-e)).
