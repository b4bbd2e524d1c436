(** Model of owamp/time.c: timestamps, their wire form, and error estimates. *)
From Coq Require Import ZArith List Bool.
From Verif Require Import Base Arith_Model.
Import ListNotations.
Open Scope Z_scope.

(** owamp.h 278-283: struct OWPTimeStampRec. [sync], [multiplier], [scale] are uint8_t. *)
Record timestamp := mkTS { owptime : Z; sync : Z; multiplier : Z; scale : Z }.

(** owamp.h 1767 *)
Definition JAN_1970 : Z := 2208988800. (* 0x83aa7e80 *)

(** time.c 346-375: _OWPEncodeTimeStamp, the 8 octets stored in buf[0..7]. *)
Definition encode_timestamp (t : timestamp) : list Z :=
  be_enc 4 ((owptime t / M32) mod M32) ++ be_enc 4 (owptime t mod M32).

(** time.c 444-478: _OWPDecodeTimeStamp sets owptime only, the other members are untouched. *)
Definition decode_timestamp (t : timestamp) (buf : list Z) : timestamp :=
  {| owptime := Z.lor (u64 (be_dec (sub 0 4 buf) * M32)) (be_dec (sub 4 4 buf));
     sync := sync t; multiplier := multiplier t; scale := scale t |}.

(** time.c 393-425: _OWPEncodeTimeStampErrEstimate; [None] = returns False (buffer untouched). *)
Definition encode_errest (t : timestamp) : option (list Z) :=
  if multiplier t =? 0 then None
  else
    let b0 := Z.land (scale t) 63 in
    let b0 := if sync t =? 0 then b0 else Z.lor b0 128 in
    Some [b0; multiplier t].

(** time.c 498-521: _OWPDecodeTimeStampErrEstimate; returns the new timestamp, the (possibly
    modified) 2-octet buffer and the boolean result. *)
Definition decode_errest (t : timestamp) (buf : list Z) : timestamp * list Z * bool :=
  let b1 := byte 1 buf in
  let b0 := if b1 =? 0 then 0 else byte 0 buf in
  ({| owptime := owptime t;
      sync := if Z.land b0 128 =? 0 then 0 else 1;
      multiplier := b1;
      scale := Z.land b0 63 |},
   [b0; b1],
   negb (b1 =? 0)).

(** time.c 544-571: OWPTimevalToTimestamp (non-NULL arguments). *)
Definition OWPTimevalToTimestamp (t : timestamp) (tv : tspec) : timestamp :=
  {| owptime := OWPNum64Add (OWPTimevalToNum64 tv) (OWPULongToNum64 JAN_1970);
     sync := sync t; multiplier := multiplier t; scale := scale t |}.

(** time.c 593-614 *)
Definition OWPTimestampToTimeval (t : timestamp) : tspec :=
  OWPNum64ToTimeval (OWPNum64Sub (owptime t) (OWPULongToNum64 JAN_1970)).

(** time.c 702-706: [while(err >= 0xFF){ err >>= 1; scale++; }], [scale] is a uint8_t.
    Bounded by fuel; a 64-bit value needs at most 57 iterations. *)
Fixpoint err_loop (fuel : nat) (err sc : Z) : Z * Z :=
  match fuel with
  | O => (err, sc)
  | S f => if 255 <=? err then err_loop f (err / 2) (u8 (sc + 1)) else (err, sc)
  end.

(** time.c 687-709: scale and multiplier computed from a non-zero error in microseconds. *)
Definition err_to_scale_mult (errest : Z) : Z * Z :=
  let err := u64 (OWPUsecToNum64 errest) in
  let '(err, sc) := err_loop 64 err 0 in
  (sc, Z.land 255 (u64 (err + 1))).

(** time.c 645-719: OWPTimespecToTimestamp. [errest], [last_errest]: [None] = NULL pointer. *)
Definition OWPTimespecToTimestamp (t : timestamp) (tv : tspec) (errest last_errest : option Z)
  : timestamp :=
  let ot := OWPNum64Add (OWPTimespecToNum64 tv) (OWPULongToNum64 JAN_1970) in
  match errest with
  | Some e =>
    if e =? 0 then {| owptime := ot; sync := 0; scale := 64; multiplier := 1 |}
    else
      if (match last_errest with None => true | Some l => negb (e =? l) end)
      then let '(sc, mu) := err_to_scale_mult e in
           {| owptime := ot; sync := sync t; scale := sc; multiplier := mu |}
      else {| owptime := ot; sync := sync t; scale := scale t; multiplier := multiplier t |}
  | None => {| owptime := ot; sync := 0; scale := 64; multiplier := 1 |}
  end.

(** time.c 741-762 *)
Definition OWPTimestampToTimespec (t : timestamp) : tspec :=
  OWPNum64ToTimespec (OWPNum64Sub (owptime t) (OWPULongToNum64 JAN_1970)).

(** time.c 797-803: [while(scale>0){ err <<= 1; scale--; }] *)
Fixpoint shl_loop (n : nat) (err : Z) : Z :=
  match n with O => err | S m => shl_loop m (u64 (err * 2)) end.

(** time.c 777-810: OWPGetTimeStampError.  Simplification: the final conversion of the OWPNum64
    to a double is omitted, the result is the OWPNum64 value [err]. *)
Definition OWPGetTimeStampError_num (t : timestamp) : Z :=
  shl_loop (Z.to_nat (Z.land (scale t) 63)) (Z.land (multiplier t) 255).

(** time.c 239-266 (STA_NANO branch): application of the NTP offset (a signed long number of
    nanoseconds) to the local time; the two [while] loops are bounded by fuel. *)
Fixpoint offset_neg_loop (fuel : nat) (sec off : Z) : option (Z * Z) :=
  match fuel with
  | O => None
  | S f => if off <? 0 then offset_neg_loop f (sec - 1) (off + BILLION) else Some (sec, off)
  end.
Fixpoint offset_pos_loop (fuel : nat) (sec off : Z) : option (Z * Z) :=
  match fuel with
  | O => None
  | S f => if BILLION <=? off then offset_pos_loop f (sec + 1) (off - BILLION)
           else Some (sec, off)
  end.

(** What the kernel reports to one call of _OWPGetTimespec: gettimeofday value (seconds,
    microseconds), whether STA_UNSYNC is set, the NTP offset and the NTP estimated error. *)
Record clock_reading := mkClk {
  ck_sec : Z; ck_usec : Z; ck_unsync : bool; ck_offset : Z; ck_esterr : Z }.

(** time.c 187-295: _OWPGetTimespec: (timespec, esterr, sync).  Simplifications: no
    OWAMP_DEBUG_TIMEOFFSET (sign_timeoffset = 0), system calls succeed, STA_NANO configuration.
    [None] only if the loop bound [fuel] is exhausted. *)
Definition OWPGetTimespec (fuel : nat) (c : clock_reading) : option (tspec * Z * Z) :=
  let sec := ck_sec c in
  let nsec := ck_usec c * 1000 in
  if ck_unsync c then Some ((sec, nsec), 0, 0)
  else
    match offset_neg_loop fuel sec (ck_offset c) with
    | None => None
    | Some (sec, off) =>
      match offset_pos_loop fuel sec off with
      | None => None
      | Some (sec, off) =>
        let nsec := nsec + off in
        let '(sec, nsec) := if BILLION <=? nsec then (sec + 1, nsec - BILLION) else (sec, nsec) in
        let timeerr := u32 (ck_esterr c) in
        Some ((sec, nsec), (if timeerr =? 0 then 1 else timeerr), 1)
      end
    end.

(** time.c 311-328: OWPGetTimeOfDay *)
Definition OWPGetTimeOfDay (fuel : nat) (c : clock_reading) (t : timestamp) : option timestamp :=
  match OWPGetTimespec fuel c with
  | None => None
  | Some (ts, esterr, sy) =>
    Some (OWPTimespecToTimestamp
            {| owptime := owptime t; sync := sy; multiplier := multiplier t; scale := scale t |}
            ts (Some esterr) None)
  end.

(** endpoint.c 1288-1289, 1448-1451 (and 2115, 2365-2369; 2591-2592, 2811-2814, 2941-2945): a
    long-running endpoint keeps one OWPTimeStamp and the error [lasterror] (initially 0) of the
    previous reading, and passes both to OWPTimespecToTimestamp for every packet.  One step: *)
Definition stamp_step (st : timestamp * Z) (reading : tspec * Z * Z) : timestamp * Z :=
  let '(ts, lasterror) := st in
  let '(currtime, esterror, sy) := reading in
  (OWPTimespecToTimestamp
     {| owptime := owptime ts; sync := sy; multiplier := multiplier ts; scale := scale ts |}
     currtime (Some esterror) (Some lasterror), esterror).
