(** Model of the session file functions, api.c 2144-3748.  A file is its list of octets.
    Simplifications: reads and writes themselves do not fail (a failing call ends the C function
    with False, having done a prefix of its writes: see [C27]); diagnostics and errno are left out;
    off_t is a signed 64 bit integer.
    All line numbers refer to /repo/owamp/owamp/owamp/. *)
From Coq Require Import ZArith List Bool.
From Verif Require Import Base Time_Model Sched_Model Wire_Model.
Import ListNotations.
Open Scope Z_scope.

(** conversion of a uint64_t to off_t *)
Definition off_t (x : Z) : Z := if x <? 9223372036854775808 then x else x - M64.

(** fread of [n] octets at position [pos]: all or nothing *)
Definition fread (pos n : nat) (f : list Z) : option (list Z) :=
  if (length f <? pos + n)%nat then None else Some (sub pos n f).

(** fwrite at a position; a gap behind the end of the file is filled with zeros *)
Definition fwrite (pos : nat) (bs f : list Z) : list Z :=
  put pos bs (f ++ zeros (pos - length f)).

(** owampP.h 409-437: _OWPSessionHeaderInitialRec (sbuf: only st_size) *)
Record inithdr := mkIH {
  ih_version : Z; ih_recsize : Z; ih_hdrlen : Z; ih_finished : Z; ih_next : Z; ih_nskip : Z; ih_ndata : Z;
  ih_oskip : Z; ih_odata : Z; ih_size : Z; ih_header : bool }.

Definition FIN_ERROR := 0.  Definition FIN_NORMAL := 1.  Definition FIN_INCOMPLETE := 2.

(** api.c 2144-2162: GetSessionFinishedType *)
Definition finished_type (v : Z) : Z := if (v =? 0) || (v =? 1) || (v =? 2) then v else FIN_ERROR.

(** owampP.h 185: "OwA" *)
Definition magic : list Z := [79; 119; 65; 0].

(** api.c 2345-2565: _OWPReadDataHeaderInitial.  [None]: False. *)
Definition read_initial (f : list Z) : option inithdr :=
  let size := Z.of_nat (length f) in
  if size <? 16 then None else
  if negb (eqb_octets (sub 0 4 f) magic) then None else
  let version := be_dec (sub 4 4 f) in
  if (version =? 0) || (version =? 2) then
    let hl := off_t (be_dec (sub 8 8 f)) in
    if version =? 0 then Some (mkIH version 24 hl 0 0 0 0 0 0 size false) else
    match fread 16 4 f with
    | None => None
    | Some w => Some (mkIH version 24 hl (finished_type (be_dec w)) 0 0 (u32 (Z.quot (size - hl) 24)) 0 hl size true)
    end
  else if (version =? 3) || (version =? 131) then
    match fread 0 40 f with
    | None => None
    | Some h =>
        let od := off_t (be_dec (sub 32 8 h)) in
        Some (mkIH version (if version =? 3 then 25 else 50) od (finished_type (be_dec (sub 8 4 h))) (be_dec (sub 12 4 h))
                (be_dec (sub 16 4 h)) (be_dec (sub 20 4 h)) (off_t (be_dec (sub 24 8 h))) od size true)
    end
  else None.

(** api.c 2582-2636: _OWPWriteDataHeaderFinished *)
Definition write_finished (fin next : Z) (f : list Z) : option (list Z) :=
  if 2 <? fin then None else Some (fwrite 12 (be_enc 4 next) (fwrite 8 (be_enc 4 fin) f)).

(** api.c 2663-2758: OWPWriteDataHeaderNumSkipRecs.  The offset behind the data records is
    computed from a 32 bit product. *)
Definition write_nskips (n : Z) (f : list Z) : option (list Z) :=
  match read_initial f with
  | None => None
  | Some h =>
      if ih_version h <? 3 then None else
      if negb (ih_nskip h =? 0) || negb (ih_oskip h =? 0) then None else
      let f := fwrite 16 (be_enc 4 n) f in
      let oskip := ih_odata h + (ih_recsize h * ih_ndata h) mod M32 in
      Some (fwrite 24 (be_enc 8 (u64 oskip)) f)
  end.

(** api.c 2776-2837: OWPWriteDataHeaderNumDataRecs *)
Definition write_ndata (n : Z) (f : list Z) : option (list Z) :=
  match read_initial f with
  | None => None
  | Some h =>
      if ih_version h <? 3 then None else
      if ih_odata h <? ih_oskip h then None else
      Some (fwrite 20 (be_enc 4 n) f)
  end.

(** owamp.h 1294-1320: OWPSessionHeaderRec *)
Record header := mkHdr {
  hd_version : Z; hd_recsize : Z; hd_twoway : bool; hd_finished : Z; hd_next : Z; hd_nskip : Z; hd_ndata : Z;
  hd_oskip : Z; hd_odata : Z; hd_sender : saddr; hd_receiver : saddr; hd_csender : bool; hd_creceiver : bool;
  hd_sid : list Z; hd_spec : testspec }.

(** api.c 3021-3041: the slots of the header *)
Fixpoint encode_slots (l : list slot) : option (list Z) :=
  match l with
  | [] => Some []
  | s :: r =>
      match encode_slot s with
      | None => None
      | Some b => match encode_slots r with None => None | Some bs => Some (b ++ bs) end
      end
  end.

(** api.c 2870-3062: OWPWriteDataHeader, the octets written (on success).  [junk]: the uninitialised
    local message buffer.  nslots slots are read from the array; the model requires the array to have
    that many. *)
Definition write_header (junk : list Z) (h : header) : option (list Z) :=
  match encode_preamble junk 112 (hd_sender h) (hd_receiver h) (if hd_twoway h then true else hd_csender h)
          (hd_creceiver h) false false (Some (hd_sid h)) (hd_spec h) with
  | None => None
  | Some pre =>
      let ver := if hd_twoway h then 131 else 3 in
      let oset := 40 + 112 + (16 * ((ts_nslots (hd_spec h) + 1) mod M32)) mod M32 in
      let fin := if (hd_finished h =? 0) || (hd_finished h =? 1) then hd_finished h else FIN_INCOMPLETE in
      let skip_oset :=
        if negb (hd_nskip h =? 0) then oset else
        if negb (hd_ndata h =? 0) then oset + (hd_ndata h * hd_recsize h) mod M32 else 0 in
      let data_oset := if negb (hd_nskip h =? 0) then oset + (hd_nskip h * 8) mod M32 else oset in
      match encode_slots (firstn (Z.to_nat (ts_nslots (hd_spec h))) (match ts_slots (hd_spec h) with Some l => l | None => [] end)) with
      | None => None
      | Some slots =>
          Some (magic ++ be_enc 4 ver ++ be_enc 4 fin ++ be_enc 4 (hd_next h) ++ be_enc 4 (hd_nskip h) ++ be_enc 4 (hd_ndata h)
                ++ be_enc 8 (u64 skip_oset) ++ be_enc 8 (u64 data_oset) ++ firstn 112 pre ++ slots ++ zeros 16)
      end
  end.

(** api.c 3078-3103 / 3119-3144: OWPWriteDataRecord, OWPWriteTWDataRecord at the end of the file *)
Definition write_record (r : datarec) (f : list Z) : option (list Z) :=
  match encode_datarec r with None => None | Some b => Some (f ++ b) end.
Definition write_twrecord (r : twrec) (f : list Z) : option (list Z) :=
  match encode_twrec r with None => None | Some b => Some (f ++ b) end.

(** api.c 3172-3273: OWPReadDataHeader: [None]: 0 is returned because of a problem; otherwise the
    header (for version 0 only the layout; the rest of the caller's record is left alone, shown as
    [None]) and the position of the stream.  *)
Definition read_header (f : list Z) : option (header * Z) :=
  match read_initial f with
  | None => None
  | Some h =>
      let tw := negb (Z.land (ih_version h) 128 =? 0) in
      let fin (s r : saddr) cs cr sid spec :=
        if ih_hdrlen h <? 0 then None else                             (* fseeko fails *)
        let fits := Z.quot (ih_size h - ih_hdrlen h) (ih_recsize h) in
        if fits <? ih_ndata h then None else
        let n := if negb (ih_finished h =? FIN_NORMAL) || tw then u32 fits else ih_ndata h in
        Some (mkHdr (ih_version h) (ih_recsize h) tw (ih_finished h) (ih_next h) (ih_nskip h) n (ih_oskip h) (ih_odata h)
                s r cs cr sid spec, ih_hdrlen h) in
      if 2 <=? ih_version h then
        match fread (if ih_version h =? 2 then 20 else 40) 112 f with
        | None => None
        | Some m =>
            match decode_preamble false m 112 false 128 with
            | PreOK p => fin (p_sender p) (p_receiver p) (p_conf_sender p) (p_conf_receiver p) (p_sid p)
                (mkTSpec (p_start p) (p_timeout p) (p_typeP p) (p_padding p) (p_npackets p) (p_nslots p) None)
            | _ => None
            end
        end
      else fin (mkSA AF_OTHER 0 []) (mkSA AF_OTHER 0 []) false false [] (mkTSpec 0 0 0 0 0 0 None)
  end.

(** api.c 3391-3417: the loop over the slots *)
Fixpoint decode_slots (pos n : nat) (f : list Z) : option (list slot) :=
  match n with
  | O => Some []
  | S k =>
      match fread pos 16 f with
      | None => None
      | Some b =>
          match decode_slot b with
          | None => None
          | Some s => match decode_slots (pos + 16) k f with None => None | Some l => Some (s :: l) end
          end
      end
  end.

(** api.c 3294-3443: OWPReadDataHeaderSlots *)
Definition read_header_slots (nslots : Z) (f : list Z) : option (list slot) :=
  match read_initial f with
  | None => None
  | Some h =>
      if ih_version h <? 2 then None else
      let slot_off := if ih_version h =? 2 then 132 else 152 in
      let hdr_off :=
        if ih_version h =? 2 then ih_hdrlen h else
        let m := Z.min (ih_oskip h) (ih_odata h) in
        if m =? 0 then Z.max (ih_oskip h) (ih_odata h) else m in
      let bytes := u32 (hdr_off - slot_off) in
      if negb (bytes mod 16 =? 0) then None else
      if negb (u32 (bytes / 16 - 1) =? nslots) then None else
      let n := Z.to_nat nslots in
      let off := Z.to_nat slot_off in
      match decode_slots off n f with
      | None => None
      | Some l =>
          match fread (off + 16 * n) 16 f with
          | None => None
          | Some z => if eqb_octets z (zeros 16) then Some l else None
          end
      end
  end.

(** api.c 3460-3528: OWPParseRecords from stream position [pos]; [proc] is the application function
    with its state.  Result: OWPErrOK (true) or OWPErrFATAL (false), state.
    api.c 3545-3600: OWPParseTWRecords is the same loop with [decode_twrec]. *)
Section Parse.
Variable R St : Type.
Variable proc : R -> St -> Z * St.
Variable dec : list Z -> option R.
Fixpoint parse_loop (len pos n : nat) (f : list Z) (s : St) : bool * St :=
  match n with
  | O => (true, s)
  | S k =>
      match fread pos len f with
      | None => (false, s)
      | Some b =>
          match dec b with
          | None => (false, s)
          | Some r =>
              let (rc, s) := proc r s in
              if rc =? 0 then parse_loop len (pos + len) k f s else (0 <=? rc, s)
          end
      end
  end.
End Parse.

(** [None]: undefined behaviour.  The record size of two-way files is 50, the local buffer has 25
    octets: if there are more than 25 octets to read, fread writes behind it. *)
Definition parse_records {St} (proc : datarec -> St -> Z * St) (version : Z) (pos n : nat) (f : list Z) (s : St) : option (bool * St) :=
  if (version =? 0) || (version =? 2) then Some (parse_loop datarec St proc (decode_datarec version) 24 pos n f s) else
  if version =? 3 then Some (parse_loop datarec St proc (decode_datarec 3) 25 pos n f s) else
  if version =? 131 then
    if (n =? 0)%nat then Some (true, s) else
    if (pos + 25 <? length f)%nat then None else Some (false, s)
  else Some (false, s).

Definition parse_tw_records {St} (proc : twrec -> St -> Z * St) (version : Z) (pos n : nat) (f : list Z) (s : St) : bool * St :=
  if version =? 131 then parse_loop twrec St proc (decode_twrec 131) 50 pos n f s else (false, s).

(** api.c 3673-3689: the loop over the skip records *)
Fixpoint decode_skips (pos n : nat) (f : list Z) : option (list skiprec) :=
  match n with
  | O => Some []
  | S k =>
      match fread pos 8 f with
      | None => None
      | Some b => match decode_skips (pos + 8) k f with None => None | Some l => Some (decode_skip b :: l) end
      end
  end.

(** api.c 3618-3693: OWPReadDataSkips *)
Definition read_data_skips (nskips : Z) (f : list Z) : option (list skiprec) :=
  match read_initial f with
  | None => None
  | Some h =>
      if ih_version h <? 2 then None else
      if negb (ih_nskip h =? nskips) then None else
      if ih_oskip h <? 0 then None else
      decode_skips (Z.to_nat (ih_oskip h)) (Z.to_nat nskips) f
  end.

(** api.c 3711-3724: OWPTestDiskspace; both products are 32 bit *)
Definition test_diskspace (t : testspec) : Z :=
  u64 (56 + 112 + (16 * ((ts_nslots t + 1) mod M32)) mod M32 + (ts_npackets t * 25) mod M32).

(** api.c 3742-3748: OWPIsLostRecord *)
Definition is_lost (r : datarec) : bool := owptime (r_recv r) =? 0.

(** The writes that complete a session file when the stop message is processed, in order:
    protocol.c 2474-2543 (skip records behind the data), api.c 2706-2753 (their number and offset),
    api.c 2602-2623 ("finished" and next sequence number).  [h]: the header fields read after the
    clean-up; position and contents of each fwrite. *)
Fixpoint skip_writes (pos : nat) (skips : list skiprec) : list (nat * list Z) :=
  match skips with
  | [] => []
  | s :: r => (pos, encode_skip s) :: skip_writes (pos + 8) r
  end.
Definition completion_writes (h : inithdr) (next : Z) (skips : list skiprec) : list (nat * list Z) :=
  let off := ih_odata h + (ih_ndata h * ih_recsize h) mod M32 in
  skip_writes (Z.to_nat off) skips ++
  [(16%nat, be_enc 4 (Z.of_nat (length skips))); (24%nat, be_enc 8 (u64 off)); (8%nat, be_enc 4 FIN_NORMAL); (12%nat, be_enc 4 next)].

(** the file after a sequence of writes *)
Definition do_writes (ws : list (nat * list Z)) (f : list Z) : list Z :=
  fold_left (fun f w => fwrite (fst w) (snd w) f) ws f.

(** protocol.c 2465-2561: the same as calls, on the file as it is after the clean-up *)
Definition complete_session (next : Z) (skips : list skiprec) (f : list Z) : option (list Z) :=
  match read_initial f with
  | None => None
  | Some h =>
      let off := ih_odata h + (ih_ndata h * ih_recsize h) mod M32 in
      if (0 <? Z.of_nat (length skips)) && (off <? 0) then None else
      match write_nskips (Z.of_nat (length skips)) (do_writes (skip_writes (Z.to_nat off) skips) f) with
      | None => None
      | Some f => write_finished FIN_NORMAL next f
      end
  end.
