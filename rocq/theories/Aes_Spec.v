(** The Advanced Encryption Standard with 128-bit keys, written after FIPS 197 and independently of
    the code: octets as elements of GF(2^8), the state as the list of its 16 octets in the order of
    the input (FIPS 197, 3.4: s[r,c] = in[r + 4c]). *)
From Coq Require Import ZArith List Bool.
Import ListNotations.
Open Scope Z_scope.

(** 4.2.1: multiplication by x modulo x^8 + x^4 + x^3 + x + 1 *)
Definition xtime (b : Z) : Z := if b <? 128 then 2 * b else Z.lxor (2 * b - 256) 27.

(** 4.2: multiplication, by adding up the intermediate results a, x a, x^2 a, ... for the bits of b *)
Fixpoint gmul_bits (n : nat) (a b : Z) : Z :=
  match n with
  | O => 0
  | S m => Z.lxor (if Z.odd b then a else 0) (gmul_bits m (xtime a) (Z.div2 b))
  end.
Definition gmul (b a : Z) : Z := gmul_bits 8 a b.

Definition all_octets : list Z := map Z.of_nat (seq 0 256).

(** 5.1.1: the multiplicative inverse, 0 for 0; then the affine transformation with c = 63 (hex) *)
Definition ginv (x : Z) : Z := match find (fun y => gmul x y =? 1) all_octets with Some y => y | None => 0 end.
Definition bit (b : Z) (i : nat) : Z := Z.b2z (Z.testbit b (Z.of_nat (i mod 8))).
Definition affine (b : Z) : Z :=
  fold_left (fun acc i => acc + 2 ^ Z.of_nat i *
    ((bit b i + bit b (i + 4) + bit b (i + 5) + bit b (i + 6) + bit b (i + 7) + bit 99 i) mod 2)) (seq 0 8) 0.
Definition sbox (x : Z) : Z := affine (ginv x).
(** 5.3.2: the inverse of the S-box *)
Definition inv_sbox (y : Z) : Z := match find (fun x => sbox x =? y) all_octets with Some x => x | None => 0 end.

(** s[r,c] *)
Definition cell (s : list Z) (r c : nat) : Z := nth (r + 4 * c) s 0.
(** the state whose s[r,c] is f r c *)
Definition state_of (f : nat -> nat -> Z) : list Z :=
  flat_map (fun c => map (fun r => f r c) [0; 1; 2; 3]%nat) [0; 1; 2; 3]%nat.

Definition SubBytes (s : list Z) : list Z := map sbox s.
Definition InvSubBytes (s : list Z) : list Z := map inv_sbox s.
(** 5.1.2, 5.3.1: row r is shifted left (right) by r *)
Definition ShiftRows (s : list Z) : list Z := state_of (fun r c => cell s r ((c + r) mod 4)).
Definition InvShiftRows (s : list Z) : list Z := state_of (fun r c => cell s r ((c + 4 - r) mod 4)).
(** 5.1.3, 5.3.3: columns times {03}x^3+{01}x^2+{01}x+{02}, or times {0b}x^3+{0d}x^2+{09}x+{0e} *)
Definition mixed (k0 k1 k2 k3 : Z) (s : list Z) : list Z :=
  state_of (fun r c =>
    Z.lxor (Z.lxor (gmul k0 (cell s r c)) (gmul k1 (cell s ((r + 1) mod 4) c)))
           (Z.lxor (gmul k2 (cell s ((r + 2) mod 4) c)) (gmul k3 (cell s ((r + 3) mod 4) c)))).
Definition MixColumns : list Z -> list Z := mixed 2 3 1 1.
Definition InvMixColumns : list Z -> list Z := mixed 14 11 13 9.
(** 5.1.4: xor with the round key, octet by octet *)
Definition AddRoundKey (k s : list Z) : list Z := map (fun p => Z.lxor (fst p) (snd p)) (combine s k).

(** 5.2, with Nk = 4: words as lists of four octets *)
Definition xorw (a b : list Z) : list Z := map (fun p => Z.lxor (fst p) (snd p)) (combine a b).
Definition SubWord (w : list Z) : list Z := map sbox w.
Definition RotWord (w : list Z) : list Z := match w with a :: r => r ++ [a] | [] => [] end.
(** Rcon[i] = [x^(i-1), 0, 0, 0] *)
Definition Rcon (i : nat) : list Z := [Nat.iter (i - 1) xtime 1; 0; 0; 0].
(** the first [n] words of the schedule *)
Fixpoint expanded (key : list Z) (n : nat) : list (list Z) :=
  match n with
  | O => []
  | S i =>
      let w := expanded key i in
      let prev := nth (i - 1) w [] in
      w ++ [if (i <? 4)%nat then firstn 4 (skipn (4 * i) key)
            else if (i mod 4 =? 0)%nat then xorw (nth (i - 4) w []) (xorw (SubWord (RotWord prev)) (Rcon (i / 4)))
            else xorw (nth (i - 4) w []) prev]
  end.
(** w[4r .. 4r+3], as 16 octets *)
Definition RoundKey (key : list Z) (r : nat) : list Z :=
  concat (map (fun j => nth (4 * r + j) (expanded key 44) []) [0; 1; 2; 3]%nat).

(** 5.1, with Nr = 10 *)
Definition Round (key : list Z) (s : list Z) (r : nat) : list Z :=
  AddRoundKey (RoundKey key r) (MixColumns (ShiftRows (SubBytes s))).
Definition Cipher (key input : list Z) : list Z :=
  let s := fold_left (Round key) [1; 2; 3; 4; 5; 6; 7; 8; 9]%nat (AddRoundKey (RoundKey key 0) input) in
  AddRoundKey (RoundKey key 10) (ShiftRows (SubBytes s)).

(** 5.3 *)
Definition InvRound (key : list Z) (s : list Z) (r : nat) : list Z :=
  InvMixColumns (AddRoundKey (RoundKey key r) (InvSubBytes (InvShiftRows s))).
Definition InvCipher (key input : list Z) : list Z :=
  let s := fold_left (InvRound key) [9; 8; 7; 6; 5; 4; 3; 2; 1]%nat (AddRoundKey (RoundKey key 10) input) in
  AddRoundKey (RoundKey key 0) (InvSubBytes (InvShiftRows s)).

(** the example of FIPS 197, appendix B / C.1 *)
Definition fips_key : list Z := [0;1;2;3;4;5;6;7;8;9;10;11;12;13;14;15].
Definition fips_plain : list Z := [0;17;34;51;68;85;102;119;136;153;170;187;204;221;238;255].
Definition fips_cipher : list Z := [105;196;224;216;106;123;4;48;216;205;183;128;112;180;197;90].
