(** Model of the machine readable summary of a one-way session (owamp/stats.c 2404-2560, 2321-2403), of the delays of buckets and percentiles
    (stats.c 466-545, 1587-1616, 1983-2003), of the report on hops (stats.c 2069-2104), and of how the time to live and the size of a datagram
    are learned (owamp/endpoint.c 1808-1920, 2323-2336).

    Doubles are fractions (Double.v).  Not modelled: the lines with names and addresses, the conversion of numbers to text by printf except where it is
    stated, summaries of two-way sessions. *)
From Coq Require Import ZArith List Bool.
From Verif Require Import Base Double Stats_Model Report_Model.
Import ListNotations.
Open Scope Z_scope.

(** ** The machine readable summary *)

(** stats.c 2454-2457: the line DSCP; [None]: not printed.  The mask is ~0x3F000000 in 32 bits *)
Definition dscp_line (typeP : Z) : option Z :=
  if Z.land typeP 3238002687 =? 0 then Some (u8 (Z.shiftr typeP 24)) else None.

(** stats.c 2356-2365, 2392-2398: the lines of the section TTLBUCKETS: value and count, from [i] on *)
Fixpoint ttl_lines (i : Z) (counts : list Z) : list (Z * Z) :=
  match counts with [] => [] | c :: r => (if c =? 0 then [] else [(i, c)]) ++ ttl_lines (i + 1) r end.

(** The fields printed; a section that is not printed is [None] *)
Record machine := mkMachine { m_start : Z; m_end : Z; m_dscp : option Z; m_session : Z; m_sample : Z; m_finished : Z;
  m_sent : Z; m_sync : bool; m_dups : Z; m_lost : Z; m_buckets : option (list (Z * Z));
  m_minttl : Z; m_maxttl : Z; m_ttls : option (list (Z * Z)); m_reorder : list (Z * Z) }.

(** stats.c 2407-2560: OWPStatsPrintMachine; [order]: the buckets in the order in which the hash table is walked (2521-2529, 375-387) *)
Definition print_machine (typeP npackets finished : Z) (order : list (Z * Z)) (g : stats) : machine :=
  let '(num, lo, hi) := ttl_stats (g_ttl g) in
  mkMachine (g_start_time g) (p_end_time (g_pk g)) (dscp_line typeP) npackets (u32 (g_last g - g_first g)) (if finished =? 1 then 1 else 0)
    (g_sent g) (g_sync g) (p_dups0 (g_pk g)) (p_lost (g_pk g)) (if p_lost (g_pk g) <? g_sent g then Some order else None)
    lo hi (if 0 <? num then Some (ttl_lines 0 (g_ttl g)) else None) (machine_reordering (o_n (g_ro g))).

(** stats.c 2446-2449 with arithm64.c OWPNum64ToDouble: UNIX_START_TIME and UNIX_END_TIME, the difference of two doubles, in units of 2^-32 s *)
Definition unix_time (t : Z) : Z := delay (2208988800 * 2^32) t.
(** printf %f: rounded to millionths *)
Definition unix_micros (t : Z) : Z := Z.sgn (unix_time t) * rne (Z.abs (unix_time t) * 1000000) (2^32).

(** ** Buckets *)

(** the least integer not less than x *)
Definition d_ceil (x : Z * Z) : Z := - ((- fst x) / snd x).

(** stats.c 485-486: the bucket of the delay x * 2^-32 s, [w]: the width.  Division and rounding treat positive and negative numbers alike.  [None]: the number does
    not fit in an int, which has no defined result *)
Definition bucket_of (w : Z * Z) (x : Z) : option Z :=
  let b := Z.sgn x * d_ceil (d_div (Z.abs x, 2^32) w) in
  if (- 2^31 <=? b) && (b <? 2^31) then Some b else None.

(** stats.c 1614: the delay of a bucket, a signed fraction *)
Definition bucket_value (w : Z * Z) (b : Z) : Z * Z := let m := d_mul (d_int (Z.abs b)) w in (Z.sgn b * fst m, snd m).

(** stats.c 1587-1616: BucketBufferSortPercentile with a constant alpha *)
Definition percentile_value (w alpha : Z * Z) (sent : Z) (sorted : list (Z * Z)) : option (Z * Z) :=
  let p := d_mul alpha (d_int sent) in
  match percentile (fst p) (snd p) 0 sorted with Some b => Some (bucket_value w b) | None => None end.

(** the constants 0.5 and 0.95 *)
Definition half : Z * Z := (1, 2).
Definition most : Z * Z := b64 95 100.

(** stats.c 1983-1999: CalculateJitter: the difference of two doubles, rounded *)
Definition pdv (w : Z * Z) (sent : Z) (sorted : list (Z * Z)) : option (Z * Z) :=
  match percentile_value w most sent sorted, percentile_value w half sent sorted with
  | Some a, Some b => let n := fst a * snd b - fst b * snd a in
                      let r := b64 (Z.abs n) (snd a * snd b) in Some (Z.sgn n * fst r, snd r)
  | _, _ => None
  end.

(** ** Hops *)

Inductive hops := NotReported | Consistently (h : Z) | Takes (n lo hi : Z).

(** stats.c 2069-2104: PrintTtlStats *)
Definition hops_line (counts : list Z) : hops :=
  let '(num, lo, hi) := ttl_stats counts in
  if num <? 1 then NotReported else if num =? 1 then Consistently (255 - lo) else Takes num (255 - hi) (255 - lo).

(** one control message: level, type, data *)
Record cmsg := mkCmsg { cm_level : Z; cm_type : Z; cm_data : list Z }.
(** what recvmsg says: number of octets, whether control data is present (msg_controllen), MSG_CTRUNC, the control messages *)
Record received := mkReceived { v_rc : Z; v_control : bool; v_ctrunc : bool; v_msgs : list cmsg }.

(** CMSG_DATA as an int, converted to uint8_t: its lowest octet (little endian) *)
Definition low_octet (d : list Z) : Z := byte 0 d.

(** endpoint.c 1849-1919: the loop over the control messages; the numbers are those of Linux: AF_INET 2, AF_INET6 10, IPPROTO_IP 0, IPPROTO_IPV6 41, IP_TTL 2,
    IP_RECVTTL 12, IPV6_HOPLIMIT 52.  Result: the value returned and the TTL *)
Fixpoint walk (family : Z) (rc ttl : Z) (l : list cmsg) : Z * Z :=
  match l with
  | [] => (rc, ttl)
  | m :: r =>
      if family =? 10 then
        if (cm_level m =? 41) && (cm_type m =? 52) then walk family rc (low_octet (cm_data m)) r else (- rc, ttl)
      else if family =? 2 then
        if (cm_level m =? 0) && (cm_type m =? 12) then walk family rc (byte 0 (cm_data m)) r
        else if (cm_level m =? 0) && (cm_type m =? 2) then walk family rc (low_octet (cm_data m)) r else (- rc, ttl)
      else (- rc, ttl)
  end.
(** endpoint.c 1808-1920: recvfromttl *)
Definition recvfromttl (family : Z) (v : received) : Z * Z :=
  if v_rc v <? 0 then (v_rc v, 255)
  else if negb (v_control v) || v_ctrunc v then (v_rc v, 255)
  else walk family (v_rc v) 255 (v_msgs v).

(** ** The size of a datagram *)

(** recvmsg: of a datagram longer than the buffer the beginning is delivered, with MSG_TRUNC, which is not looked at *)
Definition delivered (len : nat) (datagram : list Z) : list Z := firstn len datagram.
(** endpoint.c 2323-2336: the octets that are taken for a test packet, and the TTL; [None]: the datagram is not taken for one.  [len]: len_payload *)
Definition taken (family : Z) (len : nat) (datagram : list Z) (control ctrunc : bool) (msgs : list cmsg) : option (list Z * Z) :=
  let d := delivered len datagram in
  let (rc, ttl) := recvfromttl family (mkReceived (Z.of_nat (length d)) control ctrunc msgs) in
  if rc =? Z.of_nat len then Some (d, ttl) else None.
