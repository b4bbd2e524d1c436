(** Specification vocabulary for wire formats. It uses the record types of the model, but none of
    its functions.  First: the number formed by the octets of a field, most significant octet first (RFC 4656 section 1: network order). *)
From Coq Require Import ZArith List Bool.
From Verif Require Import Time_Model Sched_Model Wire_Model.
Import ListNotations.
Open Scope Z_scope.

Fixpoint number (l : list Z) : Z :=
  match l with
  | [] => 0
  | b :: r => b * 256 ^ Z.of_nat (length r) + number r
  end.

(** octets off .. off+len-1 of a message *)
Definition octs_at (m : list Z) (off len : nat) : list Z := firstn len (skipn off m).

(** numeric field at off, of len octets *)
Definition field (m : list Z) (off len : nat) : Z := number (octs_at m off len).

Definition octet_string (n : nat) (l : list Z) : Prop :=
  length l = n /\ Forall (fun b => 0 <= b < 256) l.

(** a representable slot *)
Definition slot_ok (s : slot) : Prop :=
  match s with SlotExp m => 0 <= m < 2^64 | SlotLit o => 0 <= o < 2^64 | SlotOther => False end.

(** timestamps that the wire form can carry: 64-bit time, boolean sync, 8-bit non-zero
    multiplier, 6-bit scale *)
Definition ts_ok (t : timestamp) : Prop :=
  0 <= owptime t < 2^64 /\ (sync t = 0 \/ sync t = 1) /\ 1 <= multiplier t <= 255 /\ 0 <= scale t < 64.

(** data records with 32-bit sequence number and 8-bit TTL *)
Definition rec_ok (r : datarec) : Prop :=
  0 <= r_seq r < 2^32 /\ ts_ok (r_send r) /\ ts_ok (r_recv r) /\ 0 <= r_ttl r < 2^8.

(** the timestamp whose time is at [otime] and whose error estimate (S bit, unused bit, 6-bit
    scale, multiplier) is at [oerr] (RFC 4656 section 4.1.2) *)
Definition spec_ts (m : list Z) (otime oerr : nat) : timestamp :=
  mkTS (field m otime 8) (field m oerr 1 / 128) (field m (oerr + 1) 1) (field m oerr 1 mod 64).

(** well-formed socket address *)
Definition sa_ok (s : saddr) : Prop :=
  0 <= sa_port s < 2^16 /\ Forall (fun b => 0 <= b < 256) (sa_addr s) /\
  length (sa_addr s) = match sa_family s with AF_INET => 4%nat | AF_INET6 => 16%nat | AF_OTHER => 0%nat end.

(** members within their C types *)
Definition tspec_ok (t : testspec) : Prop :=
  0 <= ts_start t < 2^64 /\ 0 <= ts_timeout t < 2^64 /\ 0 <= ts_typeP t < 2^32 /\ 0 <= ts_padding t < 2^32 /\
  0 <= ts_npackets t < 2^32 /\ 0 <= ts_nslots t < 2^32.

(** Request-Session layout, RFC 4656 section 3.5 (command 1; command 5 for TWAMP): s, r sender and
    receiver address, cs/cr conf-sender/conf-receiver, tw two-way, za: send zero addresses *)
Definition layout (m : list Z) (s r : saddr) (cs cr tw za : bool) (sid : list Z) (t : testspec) : Prop :=
  let v6 := match sa_family s with AF_INET6 => true | _ => false end in
  let alen := if v6 then 16%nat else 4%nat in
  field m 0 1 = (if tw then 5 else 1) /\
  field m 1 1 = (if v6 then 6 else 4) /\
  field m 2 1 = (if tw then 0 else if cs then 1 else 0) /\
  field m 3 1 = (if tw then 0 else if cr then 1 else 0) /\
  field m 4 4 = (if tw then 0 else ts_nslots t) /\
  field m 8 4 = (if tw then 0 else ts_npackets t) /\
  field m 12 2 = sa_port s /\ field m 14 2 = sa_port r /\
  octs_at m 16 alen = (if za then repeat 0 alen else sa_addr s) /\
  (v6 = false -> octs_at m 20 12 = repeat 0 12%nat) /\
  octs_at m 32 alen = (if za then repeat 0 alen else sa_addr r) /\
  (v6 = false -> octs_at m 36 12 = repeat 0 12%nat) /\
  octs_at m 48 16 = sid /\
  field m 64 4 = ts_padding t /\ field m 68 8 = ts_start t /\ field m 76 8 = ts_timeout t /\
  field m 84 4 = ts_typeP t /\ octs_at m 88 24 = repeat 0 24%nat.

(** which octet strings are acceptable requests *)
Definition pre_legal (tw : bool) (m : list Z) : Prop :=
  (field m 1 1 mod 16 = 4 \/ field m 1 1 mod 16 = 6) /\
  (if tw then field m 2 1 = 0 /\ field m 3 1 = 0 /\ field m 4 4 = 0 /\ field m 8 4 = 0
   else field m 2 1 <> 0 \/ field m 3 1 <> 0).

(** what an accepted request means; in a request, the port of an endpoint that the server itself
    configures is ignored *)
Definition pre_fields (request : bool) (m : list Z) (p : preamble) : Prop :=
  let fam := if p_ipvn p =? 6 then AF_INET6 else AF_INET in
  let alen := if p_ipvn p =? 6 then 16%nat else 4%nat in
  p_ipvn p = field m 1 1 mod 16 /\
  (p_conf_sender p = true <-> field m 2 1 <> 0) /\ (p_conf_receiver p = true <-> field m 3 1 <> 0) /\
  p_nslots p = field m 4 4 /\ p_npackets p = field m 8 4 /\
  p_sender p = mkSA fam (if request && p_conf_sender p then 0 else field m 12 2) (octs_at m 16 alen) /\
  p_receiver p = mkSA fam (if request && p_conf_receiver p then 0 else field m 14 2) (octs_at m 32 alen) /\
  p_sid p = octs_at m 48 16 /\ p_padding p = field m 64 4 /\ p_start p = field m 68 8 /\
  p_timeout p = field m 76 8 /\ p_typeP p = field m 84 4.
