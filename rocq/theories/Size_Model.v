(** Model of the sizes of test packets, of the buffer an endpoint allocates for them, of what the endpoints
    do with this buffer, and of the bandwidth a test is said to need.
    Line numbers refer to /repo/owamp/owamp/owamp/. *)
From Coq Require Import ZArith List Bool.
From Verif Require Import Base Arith_Model Double Clean_Model Control_Model Packet_Model.
Import ListNotations.
Open Scope Z_scope.

(** address families; any other value is another family *)
Definition AF_INET := 2. Definition AF_INET6 := 10.

(** api.c 450-457 and the switch in 467-478, 500-511: IP and UDP header; [None]: other family *)
Definition header_size (af : Z) : option Z :=
  if af =? AF_INET then Some (20 + 8) else if af =? AF_INET6 then Some (40 + 8) else None.

(** api.c 459-490: OWPTestPacketSize (owamp.h 393: OWPPacketSizeT is a uint32_t) *)
Definition packet_size (af mode padding : Z) : Z :=
  match header_size af with
  | None => 0
  | Some h => if payload_size mode padding =? 0 then 0 else u32 (payload_size mode padding + h)
  end.

(** api.c 492-520: OWPTestTWPacketSize *)
Definition tw_packet_size (af mode padding : Z) : Z :=
  match header_size af with
  | None => 0
  | Some h => if tw_payload_size mode padding =? 0 then 0 else u32 (tw_payload_size mode padding + h)
  end.

(** conversion of a uint32_t to int and back (two's complement) *)
Definition to_int (x : Z) : Z := if x <? 2147483648 then x else x - M32.

(** endpoint.c 430-445: the check that the padding is not too large; [false]: the session is refused *)
Definition size_check (twoway : bool) (af mode padding : Z) : bool :=
  let tpsize := u32 ((if twoway then tw_packet_size af mode padding else packet_size af mode padding) + 128) in
  let sbuf_size := to_int tpsize in
  u32 sbuf_size =? tpsize.

(** endpoint.c 447-459: the size of the buffer ep->payload.  len_payload and snd_payload_len are size_t (owampP.h 334, endpoint.c 404) *)
Definition buffer_size (twoway : bool) (mode padding : Z) : Z :=
  let len := payload_size mode padding in
  let snd := if twoway then Z.max len (u64 (len + tw_payload_size mode 0 - payload_size mode 0)) else len in
  Z.max len snd.

(** An access to the buffer: offset and number of octets *)
Definition access := (Z * Z)%type.

(** endpoint.c 1318-1346 (run_sender), 3188-3221 (run_tw_test): where the padding starts behind sequence number, timestamp, error estimate
    and HMAC *)
Definition pad_offset (mode : Z) : Z := if (mode =? MODE_OPEN) || (mode =? MODE_MIXED) then 14 else 48.
(** endpoint.c 2650-2703 (run_reflector): where the padding of a reply starts *)
Definition reply_pad_offset (mode : Z) : Z := if (mode =? MODE_OPEN) || (mode =? MODE_MIXED) then 41 else 112.

Inductive role := Sender | Receiver | Reflector | TwClient.

(** The octets of ep->payload that the four processes touch.
    run_sender: the fields before the padding (1318-1346, 1389-1491), the random octets (1383), the packet sent (1502);
    run_receiver: the packet received (2327), the fields of a packet (2402-2456);
    run_reflector: the packet received (2762), its fields (2780-2900), the padding moved (2920-2922, source and destination), the fields
    of the reply (2924, 2926-3015), the packet sent (3022);
    run_tw_test: as run_sender (3188-3221, 3296, 3425), the reply received (3506-3512), its fields (3566-3640).
    A packet received is only looked at if it is as long as expected (reflector, receiver) or as the shortest reply (client). *)
Definition accesses (r : role) (mode padding : Z) : list access :=
  let len := payload_size mode padding in
  match r with
  | Sender => [(0, pad_offset mode); (pad_offset mode, padding); (0, len)]
  | Receiver => [(0, len); (0, pad_offset mode)]
  | Reflector =>
      [(0, len); (0, pad_offset mode)] ++
      (if reply_pad_offset mode <? len
       then [(pad_offset mode, len - reply_pad_offset mode); (reply_pad_offset mode, len - reply_pad_offset mode)] else []) ++
      [(0, reply_pad_offset mode); (0, Z.max len (tw_payload_size mode 0))]
  | TwClient =>
      let resp := u64 (len + (tw_payload_size mode 0 - payload_size mode 0)) in
      [(0, pad_offset mode); (pad_offset mode, padding); (0, len); (0, resp)] ++
      (if resp <? tw_payload_size mode 0 then [] else [(0, reply_pad_offset mode)])
  end.

(** whether the process is one of a two-way session *)
Definition is_twoway (r : role) : bool := match r with Sender | Receiver => false | Reflector | TwClient => true end.

(** api.c 436-438: the sum of the mean delays *)
Definition total_delay (delays : list Z) : Z := fold_left OWPNum64Add delays 0.

(** api.c 418-448: OWPTestPacketRate, packets per second.  The number of slots is the length of the list; tspec is never null here *)
Definition packet_rate (delays : list Z) : Z * Z :=
  match delays with
  | [] => d_int 0
  | _ => let duration := total_delay delays in
         if duration <=? 0 then d_int 0 else d_div (d_int (Z.of_nat (length delays))) (num64_double duration)
  end.

(** api.c 532-553: OWPTestPacketBandwidth *)
Definition packet_bandwidth (af mode padding : Z) (delays : list Z) : Z * Z :=
  d_mul (d_mul (packet_rate delays) (d_int (packet_size af mode padding))) (d_int 8).

(** owampd/policy.c 2370-2372: the amount demanded from the broker, a uint64_t.  [None]: the double does not fit, which is undefined *)
Definition demanded_bandwidth (af mode padding : Z) (delays : list Z) : option Z :=
  let v := d_trunc (packet_bandwidth af mode padding delays) in
  if v <? M64 then Some v else None.
