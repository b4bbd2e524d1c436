(** Model of the one-way test packets: what run_sender puts into the payload buffer and what
    run_receiver takes out of it.  All line numbers refer to /repo/owamp/owamp/owamp/. *)
From Coq Require Import ZArith List Bool.
From Verif Require Import Base Arith_Model Time_Model Control_Model.
Import ListNotations.
Open Scope Z_scope.

(** owamp.h 1819-1839: the macros timespecadd, timespecsub, timespeccmp.  tv_sec is a 64 bit
    time_t; the values stay far below its limit. *)
Definition ts_add (a b : tspec) : tspec :=
  let s := fst a + fst b in let n := snd a + snd b in
  if 1000000000 <=? n then (s + 1, n - 1000000000) else (s, n).
Definition ts_sub (a b : tspec) : tspec :=
  let s := fst a - fst b in let n := snd a - snd b in
  if n <? 0 then (s - 1, n + 1000000000) else (s, n).
Definition ts_gt (a b : tspec) : bool :=
  if fst a =? fst b then snd b <? snd a else fst b <? fst a.
Definition ts_lt (a b : tspec) : bool :=
  if fst a =? fst b then snd a <? snd b else fst a <? fst b.

(** api.c 365-385, 387-407: OWPTestPayloadSize and OWPTestTWPayloadSize (owamp.h 393: OWPPacketSizeT is a uint32_t) *)
Definition payload_size (mode padding : Z) : Z :=
  u32 ((if (mode =? MODE_OPEN) || (mode =? MODE_MIXED) then 14 else if (mode =? MODE_AUTH) || (mode =? MODE_ENCR) then 48 else 0) + padding).
Definition tw_payload_size (mode padding : Z) : Z :=
  u32 ((if (mode =? MODE_OPEN) || (mode =? MODE_MIXED) then 41 else if (mode =? MODE_AUTH) || (mode =? MODE_ENCR) then 112 else 0) + padding).

Section Cipher.
Variable E D : list Z -> list Z -> list Z.
Variable H : list Z -> list Z -> list Z.

(** endpoint.c 1448-1464: timestamp and error estimate as sent; an estimate that cannot be encoded
    is replaced by the largest possible one *)
Definition stamp_octets (ts : timestamp) : list Z * list Z :=
  match encode_errest ts with
  | Some e => (encode_timestamp ts, e)
  | None =>
      let ts' := mkTS (owptime ts) 0 255 63 in
      (encode_timestamp ts, match encode_errest ts' with Some e => e | None => [] end)
  end.

(** endpoint.c 1318-1346, 1389-1417, 1448-1491: the payload of packet [seq] stamped [ts].  The buffer
    was allocated with calloc, so in authenticated mode octets 26..31 are zero.  [None]: not a mode
    of run_sender. *)
Definition build_packet (mode : Z) (aeskey hmackey : list Z) (padding : list Z) (seq : Z) (ts : timestamp) : option (list Z) :=
  let '(tb, eb) := stamp_octets ts in
  let b1 := be_enc 4 seq ++ zeros 12 in
  let b2 := tb ++ eb ++ zeros 6 in
  if mode =? MODE_OPEN then Some (be_enc 4 seq ++ tb ++ eb ++ padding) else
  if mode =? MODE_AUTH then
    let '(c1, _) := cbc_enc E aeskey (zeros 16) 1 b1 in
    Some (c1 ++ b2 ++ firstn 16 (H hmackey b1) ++ padding) else
  if mode =? MODE_ENCR then
    let '(c1, iv) := cbc_enc E aeskey (zeros 16) 1 b1 in
    let '(c2, _) := cbc_enc E aeskey iv 1 b2 in
    Some (c1 ++ c2 ++ firstn 16 (H hmackey (b1 ++ b2)) ++ padding)
  else None.

(** endpoint.c 2402-2456, 2474-2480: the receiver's side, on a payload of the expected length.
    [PBadHmac]: the packet is ignored; otherwise sequence number, send time (members that
    _OWPDecodeTimeStamp does not set come from the previous packet, but all are set by
    _OWPDecodeTimeStampErrEstimate), and whether the error estimate is valid. *)
Inductive parsed := PBadHmac | PPacket (seq : Z) (send : timestamp) (valid : bool).
Definition parse_packet (mode : Z) (aeskey hmackey : list Z) (pay : list Z) : parsed :=
  let get (p : list Z) (toff eoff : nat) :=
    let t := decode_timestamp (mkTS 0 0 0 0) (sub toff 8 p) in
    let '(t, _, ok) := decode_errest t (sub eoff 2 p) in
    PPacket (be_dec (sub 0 4 p)) t ok in
  if mode =? MODE_OPEN then get pay 4%nat 12%nat else
  let '(p1, iv) := cbc_dec D aeskey (zeros 16) 1 (sub 0 16 pay) in
  let pay := put 0 p1 pay in
  let '(pay, txt) :=
    if mode =? MODE_ENCR then
      let '(p2, _) := cbc_dec D aeskey iv 1 (sub 16 16 pay) in (put 16 p2 pay, p1 ++ p2)
    else (pay, p1) in
  if eqb_octets (sub 32 16 pay) (firstn 16 (H hmackey txt)) then get pay 16%nat 24%nat else PBadHmac.
End Cipher.
