(** Model of the octet codecs in owamp/protocol.c: schedule slots, skip records, data records,
    two-way data records and the Request-Session preamble. *)
From Coq Require Import ZArith List Bool.
From Verif Require Import Base Arith_Model Time_Model Sched_Model.
Import ListNotations.
Open Scope Z_scope.

(** [_OWPEncodeTimeStamp] of a bare OWPNum64 / [_OWPDecodeTimeStamp] into one, as used at
    protocol.c 723-727, 890-893, 961, 989 (the other members of the local [tstamp] are unused). *)
Definition enc_num64 (x : Z) : list Z := encode_timestamp (mkTS x 0 0 0).
Definition dec_num64 (buf : list Z) : Z := owptime (decode_timestamp (mkTS 0 0 0 0) buf).

(** protocol.c 935-964: _OWPEncodeSlot. [None] = OWPErrFATAL. *)
Definition encode_slot (s : slot) : option (list Z) :=
  let buf := zeros 16 in
  match s with
  | SlotExp mean => Some (put 8 (enc_num64 mean) (put 0 [0] buf))
  | SlotLit offset => Some (put 8 (enc_num64 offset) (put 0 [1] buf))
  | SlotOther => None
  end.

(** protocol.c 980-1004: _OWPDecodeSlot on a 16 octet block. [None] = OWPErrFATAL. *)
Definition decode_slot (buf : list Z) : option slot :=
  let t := dec_num64 (sub 8 8 buf) in
  match byte 0 buf with
  | 0 => Some (SlotExp t)
  | 1 => Some (SlotLit t)
  | _ => None
  end.

(** owamp.h: OWPSkipRec *)
Record skiprec := mkSkip { sk_begin : Z; sk_end : Z }.

(** protocol.c 2179-2197: _OWPEncodeSkipRecord *)
Definition encode_skip (s : skiprec) : list Z :=
  be_enc 4 (sk_begin s) ++ be_enc 4 (sk_end s).

(** protocol.c 2215-2230: _OWPDecodeSkipRecord *)
Definition decode_skip (buf : list Z) : skiprec :=
  mkSkip (be_dec (sub 0 4 buf)) (be_dec (sub 4 4 buf)).

(** owamp.h 862-867: OWPDataRec *)
Record datarec := mkRec { r_seq : Z; r_send : timestamp; r_recv : timestamp; r_ttl : Z }.

(** protocol.c 2992-3025: _OWPEncodeDataRecord, the 25 octets; [None] = returns False. *)
Definition encode_datarec (r : datarec) : option (list Z) :=
  let buf := zeros 25 in
  let buf := put 0 (be_enc 4 (r_seq r)) buf in
  let buf := put 8 (encode_timestamp (r_send r)) buf in
  match encode_errest (r_send r) with
  | None => None
  | Some se =>
    let buf := put 4 se buf in
    match encode_errest (r_recv r) with
    | None => None
    | Some re =>
      let buf := put 6 re buf in
      let buf := put 16 (encode_timestamp (r_recv r)) buf in
      Some (put 24 [u8 (r_ttl r)] buf)
    end
  end.

(** protocol.c 3055: memset(rec,0,sizeof(OWPDataRec)) *)
Definition ts0 : timestamp := mkTS 0 0 0 0.

(** protocol.c 3043-3090: _OWPDecodeDataRecord; [None] = returns False.  Simplification: the
    in-place clearing of buf by the error-estimate decoder (which happens only on the False path)
    is not part of the result. *)
Definition decode_datarec (version : Z) (buf : list Z) : option datarec :=
  let seq := be_dec (sub 0 4 buf) in
  let go (osend oserr orecv orerr : nat) (ttl : Z) :=
    let send := decode_timestamp ts0 (sub osend 8 buf) in
    let '(send, _, ok) := decode_errest send (sub oserr 2 buf) in
    if ok then
      let recv := decode_timestamp ts0 (sub orecv 8 buf) in
      let '(recv, _, ok) := decode_errest recv (sub orerr 2 buf) in
      if ok then Some (mkRec seq send recv ttl) else None
    else None in
  if (version =? 0) || (version =? 2) then go 4%nat 12%nat 14%nat 22%nat 255
  else if version =? 3 then go 8%nat 4%nat 16%nat 6%nat (byte 24 buf)
  else None.

(** owamp.h: OWPTWDataRec *)
Record twrec := mkTW { tw_sent : datarec; tw_refl : datarec }.

(** protocol.c 3108-3122: _OWPEncodeTWDataRecord, the 50 octets. *)
Definition encode_twrec (r : twrec) : option (list Z) :=
  match encode_datarec (tw_sent r) with
  | None => None
  | Some a =>
    match encode_datarec (tw_refl r) with
    | None => None
    | Some b => Some (a ++ b)
    end
  end.

(** protocol.c 3140-3161: _OWPDecodeTWDataRecord. [131] is _OWP_VERSION_TWOWAY|3. *)
Definition decode_twrec (version : Z) (buf : list Z) : option twrec :=
  if version =? 131 then
    match decode_datarec 3 (sub 0 25 buf) with
    | None => None
    | Some a =>
      match decode_datarec 3 (sub 25 25 buf) with
      | None => None
      | Some b => Some (mkTW a b)
      end
    end
  else None.

(** struct sockaddr as used by the codec: family, port (16-bit value; in memory and on the wire in
    network order) and the address octets (4 for AF_INET, 16 for AF_INET6). *)
Inductive family := AF_INET | AF_INET6 | AF_OTHER.
Record saddr := mkSA { sa_family : family; sa_port : Z; sa_addr : list Z }.
Definition family_eqb (a b : family) : bool :=
  match a, b with
  | AF_INET, AF_INET | AF_INET6, AF_INET6 | AF_OTHER, AF_OTHER => true
  | _, _ => false
  end.

(** owamp.h 594-611: OWPTestSpec.  [ts_slots]: [None] = NULL pointer; nslots is a separate member
    in C and is kept separate here. *)
Record testspec := mkTSpec {
  ts_start : Z; ts_timeout : Z; ts_typeP : Z; ts_padding : Z; ts_npackets : Z;
  ts_nslots : Z; ts_slots : option (list slot) }.

(** protocol.c 581-745: _OWPEncodeTestRequestPreamble writing into [msg] ([len_ret] = size of the
    buffer).  [sid]: [None] = NULL pointer.  Result: the new buffer if the function returned 0,
    [None] if it returned an error (the buffer is not sent then). *)
Definition encode_preamble (msg : list Z) (len_ret : Z) (sender receiver : saddr)
    (conf_sender conf_receiver twoway zero_addr : bool) (sid : option (list Z)) (t : testspec)
  : option (list Z) :=
  if len_ret <? 112 then None
  else if negb twoway && negb conf_sender && negb conf_receiver then None
  else if negb (family_eqb (sa_family sender) (sa_family receiver)) then None
  else
    match (match sa_family sender with AF_INET => Some 4 | AF_INET6 => Some 6 | AF_OTHER => None end)
    with
    | None => None
    | Some version =>
      if negb twoway && ((ts_npackets t <? 1) || (ts_nslots t <? 1)
                         || match ts_slots t with None => true | Some _ => false end)
      then None
      else
        let buf := put 0 [if twoway then 5 else 1] msg in
        let buf := put 1 [Z.land version 15] buf in
        let buf := put 2 [if conf_sender && negb twoway then 1 else 0] buf in
        let buf := put 3 [if conf_receiver && negb twoway then 1 else 0] buf in
        let buf := put 4 (be_enc 4 (if twoway then 0 else ts_nslots t)) buf in
        let buf := put 8 (be_enc 4 (if twoway then 0 else ts_npackets t)) buf in
        let buf :=
          if version =? 6 then
            let buf := put 16 (if zero_addr then zeros 16 else sa_addr sender) buf in
            let buf := put 12 (be_enc 2 (sa_port sender)) buf in
            let buf := put 32 (if zero_addr then zeros 16 else sa_addr receiver) buf in
            put 14 (be_enc 2 (sa_port receiver)) buf
          else
            let buf := put 16 (if zero_addr then zeros 4 else sa_addr sender) buf in
            let buf := put 12 (be_enc 2 (sa_port sender)) buf in
            let buf := put 20 (zeros 12) buf in
            let buf := put 32 (if zero_addr then zeros 4 else sa_addr receiver) buf in
            let buf := put 14 (be_enc 2 (sa_port receiver)) buf in
            put 36 (zeros 12) buf in
        let buf := match sid with None => buf | Some s => put 48 s buf end in
        let buf := put 64 (be_enc 4 (ts_padding t)) buf in
        let buf := put 68 (enc_num64 (ts_start t)) buf in
        let buf := put 76 (enc_num64 (ts_timeout t)) buf in
        let buf := put 84 (be_enc 4 (ts_typeP t)) buf in
        Some (put 88 (zeros 24) buf)
    end.

(** What _OWPDecodeTestRequestPreamble stores through its out parameters (the slots are read
    separately). *)
Record preamble := mkPre {
  p_ipvn : Z; p_sender : saddr; p_receiver : saddr; p_conf_sender : bool; p_conf_receiver : bool;
  p_sid : list Z; p_nslots : Z; p_npackets : Z; p_padding : Z; p_start : Z; p_timeout : Z;
  p_typeP : Z }.

(** Outcome: OWPErrOK, OWPErrWARNING (request cannot be honoured) or OWPErrFATAL.
    Simplification: out parameters already stored when WARNING is returned are not represented. *)
Inductive pre_result := PreOK (p : preamble) | PreWarning | PreFatal.

(** protocol.c 746-903: _OWPDecodeTestRequestPreamble. [socklen] is the size of the address
    buffers (in/out parameter; sizeof(sockaddr_in)=16, sizeof(sockaddr_in6)=28). *)
Definition decode_preamble (request : bool) (msg : list Z) (msg_len : Z) (twoway : bool)
    (socklen : Z) : pre_result :=
  if negb (msg_len =? 112) then PreFatal
  else
    let ipvn := Z.land (byte 1 msg) 15 in
    let nslots := be_dec (sub 4 4 msg) in
    let npackets := be_dec (sub 8 4 msg) in
    let conf_sender := negb (byte 2 msg =? 0) in
    let conf_receiver := negb (byte 3 msg =? 0) in
    if negb conf_sender && negb conf_receiver && negb twoway then PreWarning
    else if twoway && (conf_sender || conf_receiver) then PreWarning
    else if twoway && (negb (nslots =? 0) || negb (npackets =? 0)) then PreWarning
    else
      let sport := if request && conf_sender then 0 else be_dec (sub 12 2 msg) in
      let rport := if request && conf_receiver then 0 else be_dec (sub 14 2 msg) in
      let fin s r :=
        PreOK (mkPre ipvn s r conf_sender conf_receiver (sub 48 16 msg) nslots npackets
                 (be_dec (sub 64 4 msg)) (dec_num64 (sub 68 8 msg)) (dec_num64 (sub 76 8 msg))
                 (be_dec (sub 84 4 msg))) in
      if ipvn =? 6 then
        if socklen <? 28 then PreFatal
        else fin (mkSA AF_INET6 sport (sub 16 16 msg)) (mkSA AF_INET6 rport (sub 32 16 msg))
      else if ipvn =? 4 then
        if socklen <? 16 then PreFatal
        else fin (mkSA AF_INET sport (sub 16 4 msg)) (mkSA AF_INET rport (sub 32 4 msg))
      else PreWarning.
