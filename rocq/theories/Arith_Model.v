(** Model of owamp/arithm64.c: 32.32 fixed-point arithmetic and conversions.
    OWPNum64 is uint64_t (owamp.h 252-270); its upper 32 bits are seconds, its lower 32 bits are a
    binary fraction of a second.  LP64 data model: [unsigned long] has 64 bits. *)
From Coq Require Import ZArith List.
From Verif Require Import Base.
Import ListNotations.
Open Scope Z_scope.

(** arithm64.c 37: #define MASK32(x) ((x) & 0xFFFFFFFFUL).
    Simplification: [&] with 2^32-1 on an unsigned value is written as [mod 2^32]. *)
Definition mask32 (x : Z) : Z := x mod M32.

(** arithm64.c 38-39 *)
Definition BILLION : Z := 1000000000.
Definition MILLION : Z := 1000000.

(** arithm64.c 91-95: one step of the inner digit loop, [t = k + xdec[i]*ydec[j] + w[i+j];
    w[i+j] = t % 2^32; k = t / 2^32], all in uint64_t. *)
Definition mult_step (xi yj : Z) (idx : nat) (kw : Z * list Z) : Z * list Z :=
  let '(k, w) := kw in
  let t := u64 (k + u64 (xi * yj) + nth idx w 0) in
  (t / M32, upd idx (t mod M32) w).

(** arithm64.c 87-103: body of the outer loop for one digit of y: i = 0, i = 1, then
    [w[j+2] = k]. *)
Definition mult_row (x0 x1 yj : Z) (j : nat) (w : list Z) : list Z :=
  let kw0 := mult_step x0 yj (0 + j) (0, w) in
  let '(k, w2) := mult_step x1 yj (1 + j) kw0 in
  upd (j + 2) k w2.

(** arithm64.c 64-108: OWPNum64Mult. *)
Definition OWPNum64Mult (x y : Z) : Z :=
  let x0 := mask32 x in
  let x1 := mask32 (x / M32) in
  let y0 := mask32 y in
  let y1 := mask32 (y / M32) in
  let w := [0; 0; 0; 0] in
  let w := mult_row x0 x1 y0 0 w in
  let w := mult_row x0 x1 y1 1 w in
  u64 (nth 1 w 0 + u64 (nth 2 w 0 * M32)).

(** arithm64.c 126-130 *)
Definition OWPULongToNum64 (a : Z) : Z := u64 (u32 a * M32).

(** owamp.h 205-212: OWPNum64Add, OWPNum64Sub, OWPNum64Diff are the plain uint64_t operators. *)
Definition OWPNum64Add (x y : Z) : Z := u64 (x + y).
Definition OWPNum64Sub (x y : Z) : Z := u64 (x - y).
Definition OWPNum64Diff (x y : Z) : Z := if y <? x then u64 (x - y) else u64 (y - x).

(** struct timespec / struct timeval: (seconds, sub-seconds). *)
Definition tspec : Type := (Z * Z)%type.

(** The loop [while(sub >= UNIT){ sec++; sub -= UNIT; }] (arithm64.c 170-173, 210-213, 263-266,
    302-305), bounded by [fuel]; every caller passes fuel that the proofs show to be sufficient. *)
Fixpoint carry_loop (fuel : nat) (unit_ sec sb : Z) (wrapsec : Z -> Z) : tspec :=
  match fuel with
  | O => (sec, sb)
  | S f => if unit_ <=? sb then carry_loop f unit_ (wrapsec (sec + 1)) (sb - unit_) wrapsec
           else (sec, sb)
  end.

(** arithm64.c 152-174.  [tv_sec] is a 64-bit signed time_t; the value stays below 2^32+1. *)
Definition OWPNum64ToTimespec (from : Z) : tspec :=
  let sec := mask32 (from / M32) in
  let nsec := mask32 (u64 (mask32 from * BILLION) / M32) in
  carry_loop 5 BILLION sec nsec (fun s => s).

(** arithm64.c 197-226.  [sec] and [nsec] are uint32_t copies of the struct members. *)
Definition OWPTimespecToNum64 (from : tspec) : Z :=
  let sec := u32 (fst from) in
  let nsec := u32 (snd from) in
  let '(sec, nsec) := carry_loop 5 BILLION sec nsec u32 in
  Z.lor (u64 (mask32 sec * M32)) (mask32 (u64 (nsec * M32) / BILLION)).

(** arithm64.c 246-268 *)
Definition OWPNum64ToTimeval (from : Z) : tspec :=
  let sec := mask32 (from / M32) in
  let usec := mask32 (u64 (mask32 from * MILLION) / M32) in
  carry_loop 5 MILLION sec usec (fun s => s).

(** arithm64.c 291-320.  uint32_t usec can exceed MILLION up to 4294 times. *)
Definition OWPTimevalToNum64 (from : tspec) : Z :=
  let sec := u32 (fst from) in
  let usec := u32 (snd from) in
  let '(sec, usec) := carry_loop 4300 MILLION sec usec u32 in
  Z.lor (u64 (mask32 sec * M32)) (mask32 (u64 (usec * M32) / MILLION)).

(** arithm64.c 389-394 *)
Definition OWPUsecToNum64 (usec : Z) : Z := u64 (u32 usec * M32) / MILLION.
