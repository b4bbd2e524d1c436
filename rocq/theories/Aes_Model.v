(** The AES implementation the library carries: owamp/rijndael-alg-fst.c (table driven, on 32-bit
    words) and the parts of owamp/rijndael-api-fst.c that set keys up.
    Words are [Z] in 0 .. 2^32-1.  [x >> n] is [Z.shiftr], [&] is [Z.land], [^] is [Z.lxor]; none of
    these leaves the range of u32 on arguments in it, and the only left shifts (GETU32) shift an octet
    by at most 24, so that no wrap-around is needed.
    Simplified: only 128-bit keys (every caller in the project passes 128:
    io.c 161-165, 197, 232; endpoint.c 3825-3857; schedule.c via bytes2Key; rijndael-api-fst.c 84-88, 227),
    so the branches keyBits == 192 and 256 of rijndaelKeySetupEnc are left out; the variant of the
    rounds compiled without FULL_UNROLL (nothing in the project defines it); big-endian GETU32/PUTU32
    of the non-Microsoft branch. *)
From Coq Require Import ZArith List Bool.
From Verif Require Import Base Aes_Tables.
Import ListNotations.
Open Scope Z_scope.

(** T[i] for a table of 256 words or a key schedule *)
Definition at_ (T : list Z) (i : Z) : Z := nth (Z.to_nat i) T 0.

(** rijndael-alg-fst.c 720: GETU32(p + off) *)
Definition GETU32 (off : nat) (p : list Z) : Z :=
  Z.lxor (Z.lxor (Z.lxor (Z.shiftl (byte off p) 24) (Z.shiftl (byte (off + 1) p) 16))
                 (Z.shiftl (byte (off + 2) p) 8)) (byte (off + 3) p).

(** rijndael-alg-fst.c 721: the four octets PUTU32 stores *)
Definition PUTU32 (st : Z) : list Z :=
  [u8 (Z.shiftr st 24); u8 (Z.shiftr st 16); u8 (Z.shiftr st 8); u8 st].

(** the four octets of a word as the code picks them: x >> 24, (x >> 16) & 0xff, (x >> 8) & 0xff, x & 0xff *)
Definition o3 (x : Z) : Z := Z.shiftr x 24.
Definition o2 (x : Z) : Z := Z.land (Z.shiftr x 16) 255.
Definition o1 (x : Z) : Z := Z.land (Z.shiftr x 8) 255.
Definition o0 (x : Z) : Z := Z.land x 255.

(** rijndael-alg-fst.c 745-762: the body of the loop for 128-bit keys, [i] iterations done (and rk
    advanced by 4 * i); the four new words are appended *)
Definition setup_step (rk : list Z) (i : nat) : list Z :=
  let w j := nth (4 * i + j) rk 0 in
  let temp := w 3%nat in
  let w4 := Z.lxor (Z.lxor (Z.lxor (Z.lxor (Z.lxor (w 0%nat)
              (Z.land (at_ Te4 (o2 temp)) 4278190080))
              (Z.land (at_ Te4 (o1 temp)) 16711680))
              (Z.land (at_ Te4 (o0 temp)) 65280))
              (Z.land (at_ Te4 (o3 temp)) 255))
              (nth i rcon 0) in
  let w5 := Z.lxor (w 1%nat) w4 in
  let w6 := Z.lxor (w 2%nat) w5 in
  let w7 := Z.lxor (w 3%nat) w6 in
  rk ++ [w4; w5; w6; w7].

(** rijndael-alg-fst.c 744-763: for(;;) { ... if(++i == 10) return 10; rk += 4; }, [n] more times *)
Fixpoint setup_loop (n : nat) (i : nat) (rk : list Z) : list Z :=
  match n with
  | O => rk
  | S m => setup_loop m (S i) (setup_step rk i)
  end.

(** rijndael-alg-fst.c 729-763: rijndaelKeySetupEnc with keyBits = 128; Nr = 10 *)
Definition rijndaelKeySetupEnc (cipherKey : list Z) : list Z :=
  setup_loop 10 0 [GETU32 0 cipherKey; GETU32 4 cipherKey; GETU32 8 cipherKey; GETU32 12 cipherKey].

(** one exchange of the words a and b of rk (rijndael-alg-fst.c 836-839) *)
Definition swap_words (a b : nat) (rk : list Z) : list Z :=
  let temp := nth a rk 0 in upd b temp (upd a (nth b rk 0) rk).

(** rijndael-alg-fst.c 835-840: for (i = 0, j = 4*Nr; i < j; i += 4, j -= 4), [fuel] bounding the
    number of turns (Nr / 2 of them are made) *)
Fixpoint reverse_loop (fuel : nat) (i j : nat) (rk : list Z) : list Z :=
  match fuel with
  | O => rk
  | S f =>
      if (i <? j)%nat then
        reverse_loop f (i + 4) (j - 4)
          (swap_words (i + 3) (j + 3) (swap_words (i + 2) (j + 2) (swap_words (i + 1) (j + 1) (swap_words i j rk))))
      else rk
  end.

(** rijndael-alg-fst.c 844-848: the new value of one word *)
Definition inv_mix_word (x : Z) : Z :=
  Z.lxor (Z.lxor (Z.lxor (at_ Td0 (Z.land (at_ Te4 (o3 x)) 255)) (at_ Td1 (Z.land (at_ Te4 (o2 x)) 255)))
                 (at_ Td2 (Z.land (at_ Te4 (o1 x)) 255))) (at_ Td3 (Z.land (at_ Te4 (o0 x)) 255)).

(** rijndael-alg-fst.c 842-864: for (i = 1; i < Nr; i++), [n] turns left *)
Fixpoint inv_mix_loop (n : nat) (i : nat) (rk : list Z) : list Z :=
  match n with
  | O => rk
  | S m =>
      let rk0 := upd (4 * i) (inv_mix_word (nth (4 * i) rk 0)) rk in
      let rk1 := upd (4 * i + 1) (inv_mix_word (nth (4 * i + 1) rk0 0)) rk0 in
      let rk2 := upd (4 * i + 2) (inv_mix_word (nth (4 * i + 2) rk1 0)) rk1 in
      let rk3 := upd (4 * i + 3) (inv_mix_word (nth (4 * i + 3) rk2 0)) rk2 in
      inv_mix_loop m (S i) rk3
  end.

(** rijndael-alg-fst.c 821-865: rijndaelKeySetupDec with keyBits = 128 (Nr = 10) *)
Definition rijndaelKeySetupDec (cipherKey : list Z) : list Z :=
  inv_mix_loop 9 1 (reverse_loop 11 0 40 (rijndaelKeySetupEnc cipherKey)).

(** s0 .. s3 *)
Definition quad : Type := (Z * Z * Z * Z)%type.

(** rijndael-alg-fst.c 888-891 and 1076-1079: the block plus the first round key *)
Definition load (rk b : list Z) : quad :=
  (Z.lxor (GETU32 0 b) (nth 0 rk 0), Z.lxor (GETU32 4 b) (nth 1 rk 0),
   Z.lxor (GETU32 8 b) (nth 2 rk 0), Z.lxor (GETU32 12 b) (nth 3 rk 0)).

(** T0[a >> 24] ^ T1[(b >> 16) & 0xff] ^ T2[(c >> 8) & 0xff] ^ T3[d & 0xff] ^ k *)
Definition mix4 (T0 T1 T2 T3 : list Z) (a b c d k : Z) : Z :=
  Z.lxor (Z.lxor (Z.lxor (Z.lxor (at_ T0 (o3 a)) (at_ T1 (o2 b))) (at_ T2 (o1 c))) (at_ T3 (o0 d))) k.

(** rijndael-alg-fst.c 966-989 (and 996-1019): one round, with the round key at rk[p .. p+3] *)
Definition enc_round (rk : list Z) (p : nat) (s : quad) : quad :=
  let '(s0, s1, s2, s3) := s in
  (mix4 Te0 Te1 Te2 Te3 s0 s1 s2 s3 (nth p rk 0),
   mix4 Te0 Te1 Te2 Te3 s1 s2 s3 s0 (nth (p + 1) rk 0),
   mix4 Te0 Te1 Te2 Te3 s2 s3 s0 s1 (nth (p + 2) rk 0),
   mix4 Te0 Te1 Te2 Te3 s3 s0 s1 s2 (nth (p + 3) rk 0)).

(** rijndael-alg-fst.c 964-1020: for(;;) with r = Nr >> 1; [p] is how far rk has been advanced;
    result: the t's and the final offset.  [r = 0] at the start would not end in C (--r == 0 is not
    met); with Nr = 10 it starts at 5. *)
Fixpoint enc_loop (r : nat) (rk : list Z) (p : nat) (s : quad) : quad * nat :=
  match r with
  | O => (s, p)
  | S r' =>
      let t := enc_round rk (p + 4) s in
      match r' with
      | O => (t, (p + 8)%nat)
      | S _ => enc_loop r' rk (p + 8) (enc_round rk (p + 8) t)
      end
  end.

(** (T4[a >> 24] & 0xff000000) ^ (T4[(b >> 16) & 0xff] & 0x00ff0000) ^
    (T4[(c >> 8) & 0xff] & 0x0000ff00) ^ (T4[d & 0xff] & 0x000000ff) ^ k *)
Definition last4 (T4 : list Z) (a b c d k : Z) : Z :=
  Z.lxor (Z.lxor (Z.lxor (Z.lxor (Z.land (at_ T4 (o3 a)) 4278190080) (Z.land (at_ T4 (o2 b)) 16711680))
                         (Z.land (at_ T4 (o1 c)) 65280)) (Z.land (at_ T4 (o0 d)) 255)) k.

(** rijndael-alg-fst.c 1022-1052: the last round, with the round key at rk[p .. p+3], and the store *)
Definition enc_last (rk : list Z) (p : nat) (t : quad) : list Z :=
  let '(t0, t1, t2, t3) := t in
  PUTU32 (last4 Te4 t0 t1 t2 t3 (nth p rk 0)) ++
  PUTU32 (last4 Te4 t1 t2 t3 t0 (nth (p + 1) rk 0)) ++
  PUTU32 (last4 Te4 t2 t3 t0 t1 (nth (p + 2) rk 0)) ++
  PUTU32 (last4 Te4 t3 t0 t1 t2 (nth (p + 3) rk 0)).

(** rijndael-alg-fst.c 867-1053: rijndaelEncrypt(rk, Nr = 10, pt, ct) *)
Definition rijndaelEncrypt (rk pt : list Z) : list Z :=
  let '(t, p) := enc_loop 5 rk 0 (load rk pt) in enc_last rk p t.

(** rijndael-alg-fst.c 1154-1177 (and 1184-1207): one round of decryption *)
Definition dec_round (rk : list Z) (p : nat) (s : quad) : quad :=
  let '(s0, s1, s2, s3) := s in
  (mix4 Td0 Td1 Td2 Td3 s0 s3 s2 s1 (nth p rk 0),
   mix4 Td0 Td1 Td2 Td3 s1 s0 s3 s2 (nth (p + 1) rk 0),
   mix4 Td0 Td1 Td2 Td3 s2 s1 s0 s3 (nth (p + 2) rk 0),
   mix4 Td0 Td1 Td2 Td3 s3 s2 s1 s0 (nth (p + 3) rk 0)).

(** rijndael-alg-fst.c 1152-1208: as [enc_loop] *)
Fixpoint dec_loop (r : nat) (rk : list Z) (p : nat) (s : quad) : quad * nat :=
  match r with
  | O => (s, p)
  | S r' =>
      let t := dec_round rk (p + 4) s in
      match r' with
      | O => (t, (p + 8)%nat)
      | S _ => dec_loop r' rk (p + 8) (dec_round rk (p + 8) t)
      end
  end.

(** rijndael-alg-fst.c 1210-1240: the last round of decryption and the store *)
Definition dec_last (rk : list Z) (p : nat) (t : quad) : list Z :=
  let '(t0, t1, t2, t3) := t in
  PUTU32 (last4 Td4 t0 t3 t2 t1 (nth p rk 0)) ++
  PUTU32 (last4 Td4 t1 t0 t3 t2 (nth (p + 1) rk 0)) ++
  PUTU32 (last4 Td4 t2 t1 t0 t3 (nth (p + 2) rk 0)) ++
  PUTU32 (last4 Td4 t3 t2 t1 t0 (nth (p + 3) rk 0)).

(** rijndael-alg-fst.c 1055-1241: rijndaelDecrypt(rk, Nr = 10, ct, pt) *)
Definition rijndaelDecrypt (rk ct : list Z) : list Z :=
  let '(t, p) := dec_loop 5 rk 0 (load rk ct) in dec_last rk p t.

(** io.c 156-166 with io.c 114-146 on one block: what the other models call E and D, AES under the
    key schedules made from 16 octets.  On arguments C cannot have (not 16 octets) both are the
    identity. *)
Definition sixteen (l : list Z) : bool :=
  (length l =? 16)%nat && forallb (fun x => (0 <=? x) && (x <? 256)) l.
Definition aesE (k b : list Z) : list Z :=
  if sixteen k && sixteen b then rijndaelEncrypt (rijndaelKeySetupEnc k) b else b.
Definition aesD (k b : list Z) : list Z :=
  if sixteen k && sixteen b then rijndaelDecrypt (rijndaelKeySetupDec k) b else b.
