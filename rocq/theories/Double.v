(** Binary64 arithmetic on non-negative numbers.  IEEE 754: the result of an operation is the exact result rounded
    to the nearest number with 53 significant bits, ties to even.  A double is represented by a fraction
    (numerator, denominator), the denominator a power of two.  Simplification: exponents are not bounded (no overflow, no subnormal
    numbers); every use in the model stays between 2^-64 and 2^128. *)
From Coq Require Import ZArith Bool.
Open Scope Z_scope.

(** nearest integer to n/d, ties to even *)
Definition rne (n d : Z) : Z :=
  let q := n / d in let r := n mod d in
  if 2 * r <? d then q else if d <? 2 * r then q + 1 else if Z.even q then q else q + 1.

(** the exponent e with 2^52 <= n/(d*2^e) < 2^53 *)
Definition b64_exp (n d : Z) : Z :=
  let e := Z.log2 n - Z.log2 d - 52 in
  if (if 0 <=? e then n <? d * 2^e * 2^52 else n * 2^(-e) <? d * 2^52) then e - 1 else e.

(** the double nearest to n/d, for n >= 0, d > 0 *)
Definition b64 (n d : Z) : Z * Z :=
  if n =? 0 then (0, 1) else
  let e := b64_exp n d in
  if 0 <=? e then (rne n (d * 2^e) * 2^e, 1) else (rne (n * 2^(-e)) d, 2^(-e)).

Definition d_int (n : Z) : Z * Z := b64 n 1.
Definition d_add (x y : Z * Z) : Z * Z := b64 (fst x * snd y + fst y * snd x) (snd x * snd y).
Definition d_mul (x y : Z * Z) : Z * Z := b64 (fst x * fst y) (snd x * snd y).
Definition d_div (x y : Z * Z) : Z * Z := b64 (fst x * snd y) (snd x * fst y).
(** conversion to an integer type: the fraction is cut off *)
Definition d_trunc (x : Z * Z) : Z := fst x / snd x.
Definition d_lt (x y : Z * Z) : bool := fst x * snd y <? fst y * snd x.
Definition d_le (x y : Z * Z) : bool := fst x * snd y <=? fst y * snd x.
