(** Model of owamp/schedule.c: pseudo-random send schedules.
    The block cipher (rijndaelEncrypt with the key schedule of bytes2Key, rijndael-api-fst.c
    222-227) is the section variable [E key block]. *)
From Coq Require Import ZArith List Bool.
From Verif Require Import Base Arith_Model.
Import ListNotations.
Open Scope Z_scope.

(** schedule.c 158-171: the constant table Q. *)
Definition Qtab : list Z :=
  [0; 0xB17217F8; 0xEEF193F7; 0xFD271862; 0xFF9D6DD0; 0xFFF4CFD0; 0xFFFEE819; 0xFFFFE7FF;
   0xFFFFFE2B; 0xFFFFFFE0; 0xFFFFFFFE; 0xFFFFFFFF].

(** schedule.c 173-175 *)
Definition BIT31 : Z := 0x80000000.
Definition LN2 : Z := 0xB17217F8.

(** schedule.c 195-198: [while((U & BIT31) && (j < 32)){ U <<= 1; j++; }] on a uint64_t. The loop
    runs at most 32 times; [fuel] 33 is never exhausted. *)
Fixpoint s1_loop (fuel : nat) (U j : Z) : Z * Z :=
  match fuel with
  | O => (U, j)
  | S f => if negb (Z.land U BIT31 =? 0) && (j <? 32)
           then s1_loop f (u64 (U * 2)) (j + 1)
           else (U, j)
  end.

(** schedule.c 218-222: [for(k = 2; k < I2Number(Q); k++) if (U < Q[k]) break;] *)
Fixpoint s3_loop (fuel : nat) (U : Z) (k : nat) : nat :=
  match fuel with
  | O => k
  | S f => if Nat.ltb k (length Qtab)
           then if U <? nth k Qtab 0 then k else s3_loop f U (S k)
           else k
  end.

(** schedule.c 224-230: [for(i = 2; i <= k; i++){ tmp = Unif(); if(tmp < V) V = tmp; }], [n] is
    the number of remaining iterations. *)
Fixpoint min_loop {St : Type} (draw : St -> Z * St) (n : nat) (V : Z) (s : St) : Z * St :=
  match n with
  | O => (V, s)
  | S m => let '(tmp, s) := draw s in
           min_loop draw m (if tmp <? V then tmp else V) s
  end.

(** schedule.c 177-238: OWPExpContextNext, over an arbitrary source [draw] of 32-bit words. *)
Definition exp_next {St : Type} (draw : St -> Z * St) (s : St) : Z * St :=
  let '(U, s) := draw s in
  let '(U, j) := s1_loop 33 U 0 in
  let U := u64 (U * 2) in
  let U := mask32 U in
  if U <? LN2 then (OWPNum64Add (OWPNum64Mult (OWPULongToNum64 j) LN2) U, s)
  else
    let k := s3_loop 12 U 2 in
    let '(V, s) := draw s in
    let '(V, s) := min_loop draw (k - 1) V s in
    (OWPNum64Mult (OWPNum64Add (OWPULongToNum64 j) V) LN2, s).

(** owamp.h: OWPSlot, a tagged union. [SlotOther] stands for a slot_type that is neither
    OWPSlotRandExpType nor OWPSlotLiteralType. *)
Inductive slot := SlotExp (mean : Z) | SlotLit (offset : Z) | SlotOther.

(** schedule.c 26-31: struct OWPExpContextRec. The key schedule is represented by the key. *)
Record expctx := mkExp { e_key : list Z; e_counter : list Z; e_out : list Z }.

(** schedule.c 34-43: struct OWPScheduleContextRec. *)
Record schedctx := mkSched {
  s_exp : expctx; s_i : Z; s_maxi : Z; s_nslots : Z; s_slots : list slot }.

(** The parts of OWPTestSpec used here (owamp.h 594-611): [slots] ([None] = NULL pointer; nslots
    is the length of the array) and [npackets] (uint32_t). *)
Record spec_sched := mkSpec { sp_slots : option (list slot); sp_npackets : Z }.
Definition sp_nslots (t : spec_sched) : Z :=
  match sp_slots t with None => 0 | Some l => Z.of_nat (length l) end.

(** schedule.c 82-86: [for (j = 15; j >= 0; j--) if (++counter[j]) break;], on the reversed
    counter (least significant octet first). *)
Fixpoint incr_le (l : list Z) : list Z :=
  match l with
  | [] => []
  | b :: t => let b' := u8 (b + 1) in
              if b' =? 0 then b' :: incr_le t else b' :: t
  end.
Definition incr_counter (l : list Z) : list Z := rev (incr_le (rev l)).

Section Cipher.
Variable E : list Z -> list Z -> list Z.

(** schedule.c 61-108: OWPUnifRand64. *)
Definition unif_rand (e : expctx) : Z * expctx :=
  let forth := Z.land (byte 15 (e_counter e)) 3 in
  let out := if forth =? 0 then E (e_key e) (e_counter e) else e_out e in
  let e' := mkExp (e_key e) (incr_counter (e_counter e)) out in
  (be_dec (sub (4 * Z.to_nat forth) 4 out), e').

(** schedule.c 240-277: CheckSlots: true = all slots valid (C returns 0). *)
Definition check_slots (t : spec_sched) : bool :=
  match sp_slots t with
  | None => true
  | Some l => forallb (fun s => match s with SlotOther => false | _ => true end) l
  end.

Definition zero_exp (sid : list Z) : expctx := mkExp sid (zeros 16) (zeros 16).

(** schedule.c 322-364: OWPScheduleContextCreate; [None] = NULL (malloc is assumed to succeed). *)
Definition sched_create (sid : list Z) (t : spec_sched) : option schedctx :=
  match sp_slots t with
  | None => None
  | Some l =>
    if (sp_nslots t =? 0) || negb (check_slots t) then None
    else Some (mkSched (zero_exp sid) 0 (sp_npackets t)
                 (Z.min (sp_nslots t) (sp_npackets t)) l)
  end.

(** schedule.c 384-416: OWPScheduleContextReset; the new context and whether OWPErrOK is
    returned. *)
Definition sched_reset (c : schedctx) (arg : option (list Z * spec_sched)) : schedctx * bool :=
  let c := mkSched (zero_exp (e_key (s_exp c))) 0 (s_maxi c) (s_nslots c) (s_slots c) in
  match arg with
  | None => (c, true)
  | Some (sid, t) =>
    if negb (check_slots t) then (c, false)
    else (mkSched (zero_exp sid) 0 (sp_npackets t)
            (Z.min (sp_nslots t) (sp_npackets t))
            (match sp_slots t with None => [] | Some l => l end), true)
  end.

(** Result of OWPScheduleContextGenerateNextDelta: a value, or undefined behaviour
    (division by zero, read outside of the slot array, abort). *)
Inductive delta_res := Delta (v : Z) | DeltaUB.

(** owamp.h 289 *)
Definition OWPErrFATAL : Z := 3.

(** schedule.c 430-463: OWPScheduleContextGenerateNextDelta. *)
Definition next_delta (c : schedctx) : delta_res * schedctx :=
  if s_maxi c <=? s_i c then (Delta OWPErrFATAL, c)
  else if s_nslots c =? 0 then (DeltaUB, c)
  else
    let idx := Z.to_nat (s_i c mod s_nslots c) in
    let c' e := mkSched e (u64 (s_i c + 1)) (s_maxi c) (s_nslots c) (s_slots c) in
    match nth_error (s_slots c) idx with
    | Some (SlotExp mean) =>
      let '(x, e) := exp_next unif_rand (s_exp c) in
      (Delta (OWPNum64Mult x mean), c' e)
    | Some (SlotLit off) => (Delta off, c' (s_exp c))
    | Some SlotOther | None => (DeltaUB, c' (s_exp c))
    end.

(** Repeated calls (the loops of endpoint.c 1376-1549 and 1742-1807 call next_delta once per
    packet). *)
Fixpoint next_deltas (n : nat) (c : schedctx) : list delta_res * schedctx :=
  match n with
  | O => ([], c)
  | S m => let '(d, c) := next_delta c in
           let '(ds, c) := next_deltas m c in
           (d :: ds, c)
  end.
End Cipher.
