(** Specification vocabulary for fetching sessions. *)
From Coq Require Import ZArith List Bool.
From Verif Require Import Time_Model Sched_Model Wire_Model Wire_Spec Control_Model Control_Spec File_Model File_Spec Server_Model Fetch_Model.
Import ListNotations.
Open Scope Z_scope.

(** A session file of the server: header fields, test request [p] with [slots], data records [recs]
    behind the header, ranges of packets not sent [skips].  [fin]: 1 finished normally, 2 not.
    Request as OWPWriteDataHeader accepts it (at least one slot and packet). *)
Definition session_file (f : list Z) (fin next : Z) (p : preamble) (slots : list slot) (skips : list skiprec) (recs : list datarec) : Prop :=
  Forall (fun b => 0 <= b < 256) f /\
  octs_at f 0 4 = [79; 119; 65; 0] /\ field f 4 4 = 3 /\ field f 8 4 = fin /\ (fin = 1 \/ fin = 2) /\ field f 12 4 = next /\
  (* the request and its slots *)
  decode_preamble false (octs_at f 40 112) 112 false 28 = PreOK p /\ 1 <= p_npackets p /\ 1 <= p_nslots p /\
  p_nslots p = Z.of_nat (length slots) /\ p_nslots p + 1 < 2^28 /\
  (forall i s, nth_error slots i = Some s -> decode_slot (octs_at f (152 + 16 * i) 16) = Some s) /\
  field f 32 8 = 152 + 16 * (p_nslots p + 1) /\
  (* the ranges of packets not sent *)
  field f 16 4 = Z.of_nat (length skips) /\ Z.of_nat (length skips) < 2^29 /\
  (field f 24 8 = 0 \/ field f 32 8 <= field f 24 8 < 2^62) /\ (skips <> [] -> field f 24 8 <> 0) /\
  field f 24 8 + 8 * Z.of_nat (length skips) <= Z.of_nat (length f) /\
  (forall i s, nth_error skips i = Some s ->
     let pos := (Z.to_nat (field f 24 8) + 8 * i)%nat in sk_begin s = field f pos 4 /\ sk_end s = field f (pos + 4) 4) /\
  (* the records: as many as announced, or, if an unfinished session announces none, as many as there are *)
  Z.of_nat (length recs) < 2^32 /\ field f 32 8 + 25 * Z.of_nat (length recs) <= Z.of_nat (length f) /\
  (if (fin =? 2) && (field f 20 4 =? 0) then Z.of_nat (length recs) = (Z.of_nat (length f) - field f 32 8) / 25
   else field f 20 4 = Z.of_nat (length recs)) /\
  (forall i r, nth_error recs i = Some r -> decode_datarec 3 (nth_record f (Z.to_nat (field f 32 8)) 25 i) = Some r).

(** the largest sequence number received, 0 if there is none *)
Definition received (r : datarec) : bool := negb (owptime (r_recv r) =? 0).
Fixpoint last_received (recs : list datarec) : Z :=
  match recs with [] => 0 | r :: t => if received r then Z.max (r_seq r) (last_received t) else last_received t end.

(** What is to be delivered of a session: the records in the range, in file order; if the session has
    not finished normally, none above the last packet received. *)
Definition wanted (fin b e : Z) (recs : list datarec) : list datarec :=
  filter (fun r => (b <=? r_seq r) && (r_seq r <=? e) && ((fin =? 1) || (r_seq r <=? last_received recs))) recs.

(** the octets of a transfer, divided by the authentication codes; [None]: the transfer breaks off *)
Fixpoint sections (l : list out) : option (list (list Z)) :=
  match l with
  | [] => Some []
  | Broken :: _ => None
  | Seal :: r => match sections r with Some s => Some ([] :: s) | None => None end
  | Chunk b :: r => match sections r with Some (s :: t) => Some ((b ++ s) :: t) | _ => None end
  end.

(** the octets of records, ranges and slots *)
Definition skip_octets (s : skiprec) (b : list Z) : Prop := length b = 8%nat /\ field b 0 4 = sk_begin s /\ field b 4 4 = sk_end s.
Definition record_octets (r : datarec) (b : list Z) : Prop := length b = 25%nat /\ decode_datarec 3 b = Some r.
Definition slot_octets (s : slot) (b : list Z) : Prop := length b = 16%nat /\ decode_slot b = Some s.

(** at most one buffer at a time, in whole blocks *)
Definition chunk_ok (o : out) : Prop := match o with Chunk b => (length b <= 400)%nat /\ (length b mod 16 = 0)%nat | _ => True end.

(** the file [g] can be read with the functions of the library: its request, ranges and records *)
Definition reads_as (g : list Z) (fin next : Z) (p : preamble) (slots : list slot) (skips : list skiprec) (recs : list datarec) : Prop :=
  exists h pos, read_header g = Some (h, pos) /\
    hd_version h = 3 /\ hd_twoway h = false /\ hd_finished h = fin /\ hd_next h = next /\
    hd_sender h = p_sender p /\ hd_receiver h = p_receiver p /\
    hd_csender h = p_conf_sender p /\ hd_creceiver h = p_conf_receiver p /\ hd_sid h = p_sid p /\
    hd_spec h = mkTSpec (p_start p) (p_timeout p) (p_typeP p) (p_padding p) (p_npackets p) (p_nslots p) None /\
    read_header_slots (p_nslots p) g = Some slots /\
    hd_nskip h = Z.of_nat (length skips) /\ (skips <> [] -> read_data_skips (hd_nskip h) g = Some skips) /\
    hd_ndata h = Z.of_nat (length recs) /\ 0 <= pos /\
    (forall i r, nth_error recs i = Some r -> decode_datarec 3 (nth_record g (Z.to_nat pos) 25 i) = Some r) /\
    Z.of_nat (length g) = pos + 25 * Z.of_nat (length recs).

(** the octets decrypted from [n] blocks of the input, behind the first [i] blocks *)
Definition piece (D : list Z -> list Z -> list Z) (c : ctl) (i n : nat) : list Z := skipn (16 * i) (incoming D c (i + n)).
