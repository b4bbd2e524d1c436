(** Specification vocabulary for the sender of two-way sessions. *)
From Coq Require Import ZArith List Bool.
From Verif Require Import Base Arith_Model Time_Model Control_Model Control_Spec Wire_Model Wire_Spec Sender_Spec Receiver_Spec Reflector_Spec Twoway_Model.
Import ListNotations.
Open Scope Z_scope.

(** a packet counts as lost if its reply was not received: receive time 0 *)
Definition tw_is_lost (r : twrec) : bool := owptime (r_recv (tw_refl r)) =? 0.
Definition tw_lost_of (q : Z) (recs : list twrec) : nat :=
  length (filter (fun r => (r_seq (tw_sent r) =? q) && tw_is_lost r) recs).
Definition tw_received_of (q : Z) (recs : list twrec) : nat :=
  length (filter (fun r => (r_seq (tw_sent r) =? q) && negb (tw_is_lost r)) recs).

(** the operating system took the packet, or reported an error that is ignored *)
Definition was_sent (res : tsend) : bool := match res with TSOk | TSOther => true | _ => false end.

(** [r] is what the reply [clear] (decrypted) says, received at time [c] with TTL [ttl] *)
Definition tells (p : protection) (clear : list Z) (c : tspec) (ttl : Z) (r : twrec) : Prop :=
  let o := reply_pos p in
  r_seq (tw_sent r) = field clear (at_sseq o) 4 /\
  r_send (tw_sent r) = spec_ts clear (at_stime o) (at_serr o) /\
  r_recv (tw_sent r) = spec_ts clear (at_rcv o) (at_err o) /\
  r_ttl (tw_sent r) = field clear (at_sttl o) 1 /\
  r_seq (tw_refl r) = field clear 0 4 /\
  r_send (tw_refl r) = spec_ts clear (at_time o) (at_err o) /\
  owptime (r_recv (tw_refl r)) = time_of c /\
  r_ttl (tw_refl r) = ttl.

(** the record of a lost packet: the scheduled time as time of sending, and no other times *)
Definition tells_lost (start : Z) (delta : nat -> Z) (q : Z) (r : twrec) : Prop :=
  r_seq (tw_sent r) = q /\ owptime (r_send (tw_sent r)) = sched_stamp start delta q /\
  owptime (r_recv (tw_sent r)) = 0 /\ r_ttl (tw_sent r) = 255 /\
  r_seq (tw_refl r) = 0 /\ owptime (r_send (tw_refl r)) = 0 /\ owptime (r_recv (tw_refl r)) = 0 /\ r_ttl (tw_refl r) = 255.

(** what is in the file, whatever happened *)
Definition tw_records (o : tout) : list twrec :=
  match o with TGo st | TEnd st | TExit st => t_recs st | TErr _ recs => recs end.
Definition tw_sentlog (o : tout) : list sent :=
  match o with TGo st | TEnd st | TExit st | TErr st _ => t_out st end.
Definition tw_skiplog (o : tout) : list Z :=
  match o with TGo st | TEnd st | TExit st | TErr st _ => map fst (t_skip st) end.

(** when packet q is to be sent, in nanoseconds since 1970 *)
Definition tw_sched (start : Z) (delta : nat -> Z) (q : Z) : Z :=
  ns_of ((start - 2208988800 * 2^32) mod 2^64) + ns_of (total delta (Z.to_nat q) mod 2^64).

(** a packet sent: decrypted, it has its number, the time of sending and the right code, and the size of the session; it
    is sent after its scheduled time, but not later than the loss timeout *)
Definition request_good (D : list Z -> list Z -> list Z) (H : list Z -> list Z -> list Z) (p : protection) (ak hk : list Z)
  (start timeout npackets : Z) (delta : nat -> Z) (len : nat) (s : sent) : Prop :=
  let clear := request_clear D p ak (s_pkt s) in
  0 <= s_seq s < npackets /\ length (s_pkt s) = len /\ request_authentic H p hk clear /\
  field clear 0 4 = s_seq s /\ field clear (req_time p) 8 = time_of (s_time s) /\ field clear (req_err p + 1) 1 <> 0 /\
  tw_sched start delta (s_seq s) < ns (s_time s) <= tw_sched start delta (s_seq s) + ns_of timeout.

(** the record of a packet without reply: it was sent, and the loss timeout had passed after that when the record was
    written, or the end of the test was requested.  [cls], [us]: the clock readings and the flags of the flushes *)
Definition lost_good (start timeout : Z) (delta : nat -> Z) (out : list sent) (cls : list (option (tspec * Z * Z))) (us : list (option nat)) (r : twrec) : Prop :=
  tells_lost start delta (r_seq (tw_sent r)) r /\
  exists s, In s out /\ s_seq s = r_seq (tw_sent r) /\ was_sent (s_res s) = true /\
  ((exists c er sy, In (Some (c, er, sy)) cls /\ ns (s_time s) + ns_of timeout < ns c) \/ exists j, In (Some j) us).

(** the record of a reply: a datagram of the size of a reply was read, its code is right, the record says what it says,
    and the packet it answers was sent before (or given up) *)
Definition reply_good (D : list Z -> list Z -> list Z) (H : list Z -> list Z -> list Z) (p : protection) (rk hk : list Z)
  (out : list sent) (skip : list Z) (es : list tenv) (r : twrec) : Prop :=
  exists e data ttl c er sy, In e es /\ te_rx e = TxData true data ttl /\ te_clock e = Some (c, er, sy) /\
  (at_pad (reply_pos p) <= length data)%nat /\
  reply_authentic H p hk (reply_clear D p rk data) /\ tells p (reply_clear D p rk data) c ttl r /\
  (In (r_seq (tw_sent r)) (map s_seq out) \/ In (r_seq (tw_sent r)) skip).

(** what the environment may do: clock readings of this era (or none), octets in datagrams, padding of the right size *)
Definition tenv_ok (p : protection) (len : nat) (e : tenv) : Prop :=
  reading_ok (te_clock e) /\ match te_rx e with TxFail => True | TxData _ data _ => octets data end /\
  length (te_pad e) = (len - req_pad p)%nat.

(** what is assumed of the cipher and the digest, and of the session: a mode, a packet size with room for the fields,
    a start time and delays that are numbers of 64 bits, at least one packet *)
Definition tw_session (E D : list Z -> list Z -> list Z) (H : list Z -> list Z -> list Z) (mode : Z) (p : protection) (len : nat)
  (start timeout npackets : Z) (delta : nat -> Z) : Prop :=
  block_cipher E D /\ blocks16 D /\ digest20 H /\ (forall k b, octets b -> octets (D k b)) /\ protection_of mode = Some p /\ (req_pad p <= len)%nat /\
  rsession_ok start timeout npackets delta /\ 0 < npackets.
