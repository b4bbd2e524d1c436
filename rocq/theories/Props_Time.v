(** Property theorems C01-C05, C56-C58: fixed-point arithmetic, timestamps, error estimates.
    Units: an OWPNum64 [x] denotes x/2^32 seconds. *)
From Coq Require Import ZArith List Bool Lia.
From Verif Require Import Base Arith_Model Arith_Proofs Time_Model Time_Proofs.
Import ListNotations.
Open Scope Z_scope.

(** C01: the product of two 32.32 numbers x/2^32 * y/2^32, truncated to 32 fractional bits, mod
    2^32 seconds, for all 2^128 operand pairs. *)
Theorem C01_num64_mult_exact : forall x y, 0 <= x < 2^64 -> 0 <= y < 2^64 ->
  OWPNum64Mult x y = (x * y / 2^32) mod 2^64.
Proof. exact Num64Mult_exact. Qed.
Print Assumptions C01_num64_mult_exact.

Example C01_example : (* all-ones operands: every carry is exercised *)
  OWPNum64Mult (2^64-1) (2^64-1) = ((2^64-1) * (2^64-1) / 2^32) mod 2^64 /\
  OWPNum64Mult (3 * 2^32 + 2^31) (2 * 2^32 + 2^30) = 7 * 2^32 + 7 * 2^29. (* 3.5 * 2.25 = 7.875 *)
Proof. split; [reflexivity|vm_compute; reflexivity]. Qed.

(** C02: exact rounding (floor) of each conversion ... *)
Theorem C02_timespec_to_num64_floor : forall s n, 0 <= s < 2^32 -> 0 <= n < 10^9 ->
  OWPTimespecToNum64 (s, n) = (s * 10^9 + n) * 2^32 / 10^9.
Proof. exact timespec_floor. Qed.
Print Assumptions C02_timespec_to_num64_floor.

Theorem C02_timeval_to_num64_floor : forall s n, 0 <= s < 2^32 -> 0 <= n < 10^6 ->
  OWPTimevalToNum64 (s, n) = (s * 10^6 + n) * 2^32 / 10^6.
Proof. exact timeval_floor. Qed.
Print Assumptions C02_timeval_to_num64_floor.

Theorem C02_num64_to_timespec_floor : forall x, 0 <= x < 2^64 ->
  exists s n, OWPNum64ToTimespec x = (s, n) /\ 0 <= s < 2^32 /\ 0 <= n < 10^9 /\
    s * 10^9 + n = x * 10^9 / 2^32.
Proof. exact num64_timespec_floor. Qed.
Print Assumptions C02_num64_to_timespec_floor.

Theorem C02_num64_to_timeval_floor : forall x, 0 <= x < 2^64 ->
  exists s n, OWPNum64ToTimeval x = (s, n) /\ 0 <= s < 2^32 /\ 0 <= n < 10^6 /\
    s * 10^6 + n = x * 10^6 / 2^32.
Proof. exact num64_timeval_floor. Qed.
Print Assumptions C02_num64_to_timeval_floor.

(** ... hence a round trip is never later and at most one unit earlier ... *)
Theorem C02_timespec_roundtrip : forall s n, 0 <= s < 2^32 -> 0 <= n < 10^9 ->
  exists s' n', OWPNum64ToTimespec (OWPTimespecToNum64 (s, n)) = (s', n') /\
    0 <= n' < 10^9 /\ s * 10^9 + n - 1 <= s' * 10^9 + n' <= s * 10^9 + n.
Proof. exact timespec_roundtrip. Qed.
Print Assumptions C02_timespec_roundtrip.

Theorem C02_timeval_roundtrip : forall s n, 0 <= s < 2^32 -> 0 <= n < 10^6 ->
  exists s' n', OWPNum64ToTimeval (OWPTimevalToNum64 (s, n)) = (s', n') /\
    0 <= n' < 10^6 /\ s * 10^6 + n - 1 <= s' * 10^6 + n' <= s * 10^6 + n.
Proof. exact timeval_roundtrip. Qed.
Print Assumptions C02_timeval_roundtrip.

Theorem C02_num64_via_timespec : forall x, 0 <= x < 2^64 ->
  x - 5 <= OWPTimespecToNum64 (OWPNum64ToTimespec x) <= x.
Proof. exact num64_timespec_back. Qed.
Print Assumptions C02_num64_via_timespec.

Theorem C02_num64_via_timeval : forall x, 0 <= x < 2^64 ->
  x - 4295 <= OWPTimevalToNum64 (OWPNum64ToTimeval x) <= x.
Proof. exact num64_timeval_back. Qed.
Print Assumptions C02_num64_via_timeval.

(** ... and order is preserved in both directions. *)
Theorem C02_timespec_monotone : forall s n s' n',
  0 <= s < 2^32 -> 0 <= n < 10^9 -> 0 <= s' < 2^32 -> 0 <= n' < 10^9 ->
  s * 10^9 + n <= s' * 10^9 + n' -> OWPTimespecToNum64 (s, n) <= OWPTimespecToNum64 (s', n').
Proof.
  intros. rewrite !C02_timespec_to_num64_floor by assumption. apply Z.div_le_mono; lia.
Qed.
Print Assumptions C02_timespec_monotone.

Theorem C02_num64_monotone : forall x y, 0 <= x -> y < 2^64 -> x <= y ->
  let '(s, n) := OWPNum64ToTimespec x in let '(s', n') := OWPNum64ToTimespec y in
  s < s' \/ s = s' /\ n <= n'.
Proof.
  intros x y Hx Hy Hxy.
  destruct (C02_num64_to_timespec_floor x) as (s & n & E & ? & ? & ?); [lia|].
  destruct (C02_num64_to_timespec_floor y) as (s' & n' & E' & ? & ? & ?); [lia|].
  rewrite E, E'.
  assert (x * 10^9 / 2^32 <= y * 10^9 / 2^32) by (apply Z.div_le_mono; lia). lia.
Qed.
Print Assumptions C02_num64_monotone.

(** Sub-second counts of a second or more (any 32-bit value) are carried into the seconds. *)
Theorem C02_timespec_carry : forall s n, 0 <= s < 2^32 -> 0 <= n < 2^32 ->
  OWPTimespecToNum64 (s, n)
  = ((s + n / 10^9) mod 2^32) * 2^32 + ((n mod 10^9) * 2^32) / 10^9.
Proof. exact TimespecToNum64_carry. Qed.
Print Assumptions C02_timespec_carry.

Example C02_example :
  OWPTimespecToNum64 (5, 999999999) = 25769803771 /\
  OWPNum64ToTimespec 25769803771 = (5, 999999998) /\
  OWPNum64ToTimeval (7 * 2^32 + 2^32 - 1) = (7, 999999) /\
  OWPTimespecToNum64 (5, 4000000001) = 9 * 2^32 + 4.
Proof. vm_compute. auto. Qed.

(** C03: wire form. *)
Theorem C03_timestamp_wire_roundtrip : forall t t0, 0 <= owptime t < 2^64 ->
  length (encode_timestamp t) = 8%nat /\ Forall (fun b => 0 <= b < 256) (encode_timestamp t) /\
  owptime (decode_timestamp t0 (encode_timestamp t)) = owptime t.
Proof.
  intros. repeat split.
  - apply encode_timestamp_octets.
  - now apply timestamp_wire.
Qed.
Print Assumptions C03_timestamp_wire_roundtrip.

Theorem C03_every_octet_string_is_a_timestamp : forall t0 buf,
  length buf = 8%nat -> Forall (fun b => 0 <= b < 256) buf ->
  encode_timestamp (decode_timestamp t0 buf) = buf.
Proof. exact timestamp_wire_onto. Qed.
Print Assumptions C03_every_octet_string_is_a_timestamp.

(** network order: first octet most significant *)
Theorem C03_timestamp_wire_big_endian : forall t b0 b1 b2 b3 b4 b5 b6 b7, 0 <= owptime t < 2^64 ->
  encode_timestamp t = [b0;b1;b2;b3;b4;b5;b6;b7] ->
  owptime t = b0*2^56 + b1*2^48 + b2*2^40 + b3*2^32 + b4*2^24 + b5*2^16 + b6*2^8 + b7.
Proof.
  intros t b0 b1 b2 b3 b4 b5 b6 b7 H E.
  rewrite <- (timestamp_wire t t H), E.
  rewrite decode_timestamp_be8; [cbv [be_dec fold_left]; lia|reflexivity|].
  rewrite <- E. apply encode_timestamp_octets.
Qed.
Print Assumptions C03_timestamp_wire_big_endian.

(** Unix time <-> NTP time: 2208988800 is the number of seconds from 1900 to 1970. *)
Theorem C03_epoch_value : forall t s n e l, 0 <= s < 2^32 -> 0 <= n < 10^9 ->
  owptime (OWPTimespecToTimestamp t (s, n) e l)
  = (s + 2208988800) mod 2^32 * 2^32 + n * 2^32 / 10^9.
Proof. exact epoch_value. Qed.
Print Assumptions C03_epoch_value.

Theorem C03_epoch_roundtrip : forall t s n e l, 0 <= s < 2^32 -> 0 <= n < 10^9 ->
  exists s' n', OWPTimestampToTimespec (OWPTimespecToTimestamp t (s, n) e l) = (s', n') /\
    0 <= n' < 10^9 /\ s * 10^9 + n - 1 <= s' * 10^9 + n' <= s * 10^9 + n.
Proof. exact epoch_roundtrip. Qed.
Print Assumptions C03_epoch_roundtrip.

Theorem C03_epoch_roundtrip_timeval : forall t s n, 0 <= s < 2^32 -> 0 <= n < 10^6 ->
  exists s' n', OWPTimestampToTimeval (OWPTimevalToTimestamp t (s, n)) = (s', n') /\
    0 <= n' < 10^6 /\ s * 10^6 + n - 1 <= s' * 10^6 + n' <= s * 10^6 + n.
Proof. exact epoch_roundtrip_timeval. Qed.
Print Assumptions C03_epoch_roundtrip_timeval.

Theorem C03_timestamp_via_unix_time : forall t0 t e l, 0 <= owptime t < 2^64 ->
  (owptime t - owptime (OWPTimespecToTimestamp t0 (OWPTimestampToTimespec t) e l)) mod 2^64 <= 5.
Proof. exact epoch_back. Qed.
Print Assumptions C03_timestamp_via_unix_time.

Example C03_example :
  encode_timestamp (mkTS (0x0102030405060708) 0 1 0) = [1;2;3;4;5;6;7;8] /\
  owptime (OWPTimespecToTimestamp (mkTS 0 0 0 0) (1700000000, 500000000) None None)
    = 3908988800 * 2^32 + 2^31.
Proof. vm_compute. auto. Qed.

(** C04: the error value read from a timestamp made from an error of [e] microseconds is an upper
    bound of e (units 2^-32 s: e us = e*2^32/10^6), less than one multiplier step too large, and
    never more than 0.8 % too large. *)
Theorem C04_error_estimate_sound_and_tight : forall t tv e, 0 < e < 2^32 ->
  let ts := OWPTimespecToTimestamp t tv (Some e) None in
  let err := OWPGetTimeStampError_num ts in
  e * 2^32 < err * 10^6 /\ err = multiplier ts * 2 ^ scale ts /\
  1 <= multiplier ts <= 255 /\ 0 <= scale ts <= 63 /\
  (multiplier ts - 1) * 2 ^ scale ts * 10^6 <= e * 2^32 /\
  127 * (err * 10^6) <= 128 * (e * 2^32) /\ sync ts = sync t.
Proof. exact err_estimate_value. Qed.
Print Assumptions C04_error_estimate_sound_and_tight.

Example C04_example : (* 1 us = 4294.97 units -> 135 * 2^5 = 4320 *)
  let ts := OWPTimespecToTimestamp (mkTS 0 1 0 0) (0,0) (Some 1) None in
  multiplier ts = 135 /\ scale ts = 5 /\ OWPGetTimeStampError_num ts = 4320.
Proof. vm_compute. auto. Qed.

(** C05 *)
Theorem C05_errest_refused_iff_multiplier_zero : forall t,
  encode_errest t = None <-> multiplier t = 0.
Proof.
  intros t. unfold encode_errest. destruct (Z.eqb_spec (multiplier t) 0); split; intros; auto;
  discriminate || contradiction.
Qed.
Print Assumptions C05_errest_refused_iff_multiplier_zero.

Theorem C05_errest_octets : forall t, (sync t = 0 \/ sync t = 1) ->
  1 <= multiplier t <= 255 -> 0 <= scale t < 64 ->
  encode_errest t = Some [128 * sync t + scale t; multiplier t].
Proof. exact encode_errest_value. Qed.
Print Assumptions C05_errest_octets.

Theorem C05_errest_roundtrip : forall t t0 buf, (sync t = 0 \/ sync t = 1) -> 0 <= scale t < 64 ->
  encode_errest t = Some buf ->
  exists t1, decode_errest t0 buf = (t1, buf, true) /\ owptime t1 = owptime t0 /\
    sync t1 = sync t /\ multiplier t1 = multiplier t /\ scale t1 = scale t.
Proof.
  intros t t0 buf H1 H2 H3. destruct (decode_errest_encode t t0 buf H1 H2 H3) as [E _].
  eexists; split; [exact E|]. auto.
Qed.
Print Assumptions C05_errest_roundtrip.

Theorem C05_zero_multiplier_rejected : forall t0 b0, 
  exists t1, decode_errest t0 [b0; 0] = (t1, [0; 0], false) /\
    sync t1 = 0 /\ scale t1 = 0 /\ multiplier t1 = 0.
Proof. intros. eexists; split; [reflexivity|]. auto. Qed.
Print Assumptions C05_zero_multiplier_rejected.

Theorem C05_nonzero_multiplier_accepted : forall t0 b0 b1, b1 <> 0 ->
  exists t1, decode_errest t0 [b0; b1] = (t1, [b0; b1], true).
Proof.
  intros t0 b0 b1 H. unfold decode_errest, byte. cbn [nth].
  destruct (Z.eqb_spec b1 0); [contradiction|]. eauto.
Qed.
Print Assumptions C05_nonzero_multiplier_accepted.

Example C05_example : encode_errest (mkTS 77 1 200 37) = Some [165; 200].
Proof. reflexivity. Qed.

(** C56: an unsynchronised clock without error estimate (esterr = 0, or no estimate given) should not be advertised as
    more precise than any synchronised one.  It is: the octets put on the wire denote an error of
    2^-32 s, smaller than the estimate of any synchronised clock. *)
Theorem C56_unsync_precision_refuted : exists c fuel t buf ts_peer,
  ck_unsync c = true /\ OWPGetTimeOfDay fuel c (mkTS 0 0 0 0) = Some t /\
  encode_errest t = Some buf /\ decode_errest (mkTS 0 0 0 0) buf = (ts_peer, buf, true) /\
  OWPGetTimeStampError_num ts_peer = 1 /\
  (forall t0 tv e, 0 < e < 2^32 ->
     OWPGetTimeStampError_num ts_peer
     < OWPGetTimeStampError_num (OWPTimespecToTimestamp t0 tv (Some e) None)).
Proof.
  exists (mkClk 1700000000 123456 true 0 0), 5%nat.
  eexists _, _, _. split; [reflexivity|]. split; [vm_compute; reflexivity|].
  split; [reflexivity|]. split; [reflexivity|]. split; [reflexivity|].
  intros t0 tv e He. destruct (C04_error_estimate_sound_and_tight t0 tv e He) as [H _].
  change (OWPGetTimeStampError_num _) with 1 at 1. lia.
Qed.
Print Assumptions C56_unsync_precision_refuted.

(** the part that holds: such a timestamp is marked as not synchronised, also after the wire *)
Theorem C56_unsync_flag_partial : forall c fuel t0 t buf ts_peer buf' r,
  ck_unsync c = true -> OWPGetTimeOfDay fuel c t0 = Some t ->
  encode_errest t = Some buf -> decode_errest t0 buf = (ts_peer, buf', r) ->
  sync t = 0 /\ sync ts_peer = 0.
Proof.
  intros c fuel t0 t buf tp buf' r Hc Ht Hb Hd.
  unfold OWPGetTimeOfDay, OWPGetTimespec in Ht. rewrite Hc in Ht. cbn in Ht.
  inversion Ht; subst t; clear Ht. cbn in Hb. inversion Hb; subst buf. cbn in Hd.
  inversion Hd; subst. split; reflexivity.
Qed.
Print Assumptions C56_unsync_flag_partial.

(** C57: endpoints re-use the previous error estimate when the clock error is unchanged.  After any
    history of readings, every timestamp carries the estimate of its own reading. *)
Theorem C57_cached_estimate_is_current : forall h t0 tv e sy ts l,
  fold_left stamp_step (h ++ [(tv, e, sy)]) (t0, 0) = (ts, l) ->
  exists prev, ts = OWPTimespecToTimestamp prev tv (Some e) None /\ sync prev = sy.
Proof. exact stamp_history_cache. Qed.
Print Assumptions C57_cached_estimate_is_current.

Example C57_example : (* estimate changes 3 -> 3 -> unsynchronised -> 3 *)
  exists ts, fold_left stamp_step
     [((1,0),3,1); ((2,0),3,1); ((3,0),0,0); ((4,0),3,1)] (mkTS 0 0 0 0, 0) = (ts, 3) /\
     OWPGetTimeStampError_num ts > 3 * 4294 /\ sync ts = 1.
Proof. eexists; split; [vm_compute; reflexivity|]. split; [vm_compute|]; reflexivity. Qed.

(** C58: a clock reading is normalised, applies the NTP offset exactly, and a synchronised clock
    always comes with a non-zero error. *)
Theorem C58_clock_reading : forall c fuel, 0 <= ck_usec c < 10^6 ->
  Z.abs (ck_offset c) / 10^9 + 2 < Z.of_nat fuel ->
  exists s n e sy, OWPGetTimespec fuel c = Some ((s, n), e, sy) /\ 0 <= n < 10^9 /\
    s * 10^9 + n = ck_sec c * 10^9 + ck_usec c * 1000
                   + (if ck_unsync c then 0 else ck_offset c) /\
    sy = (if ck_unsync c then 0 else 1) /\ (sy = 1 -> 1 <= e < 2^32) /\ (sy = 0 -> e = 0).
Proof. exact GetTimespec_ok. Qed.
Print Assumptions C58_clock_reading.

Example C58_example :
  OWPGetTimespec 9 (mkClk 1000 999999 false (-2500000000) 0) = Some ((998, 499999000), 1, 1).
Proof. reflexivity. Qed.
