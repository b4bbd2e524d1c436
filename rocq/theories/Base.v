(** Shared vocabulary: machine words and octet buffers.  Pure definitions, no proofs.
    Nothing in this file models a particular OWAMP function; it fixes how C data is represented:
    - unsigned machine integers are elements of [Z]; wrap-around is always written explicitly;
    - octets are elements of [Z] between 0 and 255, buffers and files are [list Z]. *)
From Coq Require Import ZArith List Bool.
Import ListNotations.
Open Scope Z_scope.

(** 2^8, 2^16, 2^32, 2^64 as literals (so that [lia] sees constants). *)
Notation M8  := 256 (only parsing).
Notation M16 := 65536 (only parsing).
Notation M32 := 4294967296 (only parsing).
Notation M64 := 18446744073709551616 (only parsing).

(** Conversion of an integer to uint8_t / uint16_t / uint32_t / uint64_t. *)
Definition u8  (x : Z) : Z := x mod M8.
Definition u16 (x : Z) : Z := x mod M16.
Definition u32 (x : Z) : Z := x mod M32.
Definition u64 (x : Z) : Z := x mod M64.

Definition is_u8  (x : Z) : Prop := 0 <= x < M8.
Definition is_u16 (x : Z) : Prop := 0 <= x < M16.
Definition is_u32 (x : Z) : Prop := 0 <= x < M32.
Definition is_u64 (x : Z) : Prop := 0 <= x < M64.

Definition octets (l : list Z) : Prop := Forall is_u8 l.

(** Big-endian (network order) encoding of [x] on [n] octets: htonl / htons / the hand-written
    shift code of the library. *)
Fixpoint be_enc (n : nat) (x : Z) : list Z :=
  match n with
  | O => []
  | S m => (x / 256 ^ (Z.of_nat m)) mod 256 :: be_enc m x
  end.

(** Big-endian decoding: ntohl / ntohs. *)
Definition be_dec (l : list Z) : Z := fold_left (fun a b => a * 256 + b) l 0.

(** [sub off len buf]: the octets [buf[off .. off+len-1]] (memcpy out of a buffer). *)
Definition sub (off len : nat) (buf : list Z) : list Z := firstn len (skipn off buf).

(** [put off bs buf]: memcpy of [bs] into [buf] at offset [off]. *)
Definition put (off : nat) (bs buf : list Z) : list Z :=
  firstn off buf ++ bs ++ skipn (off + length bs) buf.

(** memset(.,0,n) *)
Definition zeros (n : nat) : list Z := repeat 0 n.

(** Octet at an offset; 0 outside of the buffer (no modelled function reads outside; where the C
    code could, the model tests the length first). *)
Definition byte (off : nat) (buf : list Z) : Z := nth off buf 0.

(** memcmp(a,b,n)==0 on whole lists. *)
Fixpoint eqb_octets (a b : list Z) : bool :=
  match a, b with
  | [], [] => true
  | x :: a', y :: b' => (x =? y) && eqb_octets a' b'
  | _, _ => false
  end.

(** Array element assignment [a[i] = v]. *)
Fixpoint upd {A} (i : nat) (v : A) (l : list A) : list A :=
  match l, i with
  | [], _ => []
  | _ :: t, O => v :: t
  | h :: t, S j => h :: upd j v t
  end.
