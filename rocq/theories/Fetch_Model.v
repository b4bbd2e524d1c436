(** Fetching a session: what the server makes of the session file (OWPProcessFetchSession) and what
    the client makes of the answer (OWPFetchSession).
    /repo/owamp/owamp/owamp/sapi.c and capi.c. *)
From Coq Require Import ZArith List Bool.
From Verif Require Import Base Time_Model Sched_Model Wire_Model Control_Model File_Model Server_Model.
Import ListNotations.
Open Scope Z_scope.

(** ** The server *)

(** sapi.c 1100-1211: the attempts to get hold of a settled file.  One passage of the loop reads the
    header of the file as it then is and, if the session has not finished normally, tries to lock it:
    the file as it is under the lock, lock held by somebody else (EACCES, EAGAIN), or error. *)
Inductive lock := Locked (again : list Z) | Busy | LockError.
Inductive settled := Settled (f : list Z) (h : inithdr) | Rejected | Failed | Endless.

(** [tries i]: what passage [i] finds.  lock_tries [lt] and finish_tries [ft] bound the number of
    passages; [Endless] only if [fuel] does not suffice.  Version and finished are not looked at again
    under the lock, as in the C code; num_datarecs is then replaced if zero. *)
Fixpoint settle (fuel i lt ft : nat) (tries : nat -> list Z * lock) (b e : Z) : settled :=
  match fuel with
  | O => Endless
  | S fuel =>
      let (f, lk) := tries i in
      match read_initial f with
      | None => Failed
      | Some h =>
          if negb (ih_version h =? 3) then Failed else
          if ih_finished h =? FIN_ERROR then Failed else
          if ih_finished h =? FIN_NORMAL then Settled f h else
          match lk with
          | LockError => Failed
          | Busy => if (4 <? lt)%nat then Failed else settle fuel (S i) (S lt) ft tries b e
          | Locked g =>
              match read_initial g with
              | None => Failed
              | Some h =>
                  if (b =? 0) && (e =? 4294967295) && negb (ih_finished h =? FIN_NORMAL)
                  then if (4 <? ft)%nat then Rejected else settle fuel (S i) lt (S ft) tries b e
                  else
                    let n := if ih_ndata h =? 0 then u32 (Z.quot (ih_size h - ih_odata h) (ih_recsize h)) else ih_ndata h in
                    Settled g (mkIH (ih_version h) (ih_recsize h) (ih_hdrlen h) (ih_finished h) (ih_next h) (ih_nskip h) n
                                 (ih_oskip h) (ih_odata h) (ih_size h) (ih_header h))
              end
          end
      end
  end.

(** sapi.c 954-965: struct DoDataState, the members that change: maxiseen, count, inbuf, the part of
    the message buffer filled with records, and what has been sent *)
Record dostate := mkDo { do_max : Z; do_count : Z; do_in : Z; do_buf : list Z; do_outs : list out }.

(** sapi.c 967-1028: DoDataRecords.  Records are encoded behind one another from the beginning of
    the message buffer; a full buffer (16 records, 25 blocks) is sent. *)
Definition do_record (send : bool) (b e : Z) (r : datarec) (s : dostate) : Z * dostate :=
  let m := if (do_max s <? r_seq r) && negb (is_lost r) then r_seq r else do_max s in
  if (r_seq r <? b) || (e <? r_seq r) then (0, mkDo m (do_count s) (do_in s) (do_buf s) (do_outs s)) else
  let n := u64 (do_count s + 1) in
  if negb send then (0, mkDo m n (do_in s) (do_buf s) (do_outs s)) else
  match encode_datarec r with
  | None => (-1, mkDo m n (do_in s) (do_buf s) (do_outs s))
  | Some oct =>
      let k := do_in s + 1 in
      let buf := do_buf s ++ oct in
      if k =? 16 then (0, mkDo m n 0 [] (do_outs s ++ [Chunk buf])) else
      if 16 <? k then (-1, mkDo m n k buf (do_outs s)) else
      (0, mkDo m n k buf (do_outs s))
  end.

(** sapi.c 1233-1272: how many records are to be sent, and the state afterwards (with count reset);
    [None]: failure *)
Definition count_records (f : list Z) (h : inithdr) (b e : Z) : option (Z * Z * dostate) :=
  let s0 := mkDo 0 0 0 [] [] in
  if (ih_finished h =? FIN_NORMAL) && (b =? 0) && (e =? 4294967295) then Some (ih_ndata h, e, s0) else
  if ih_odata h <? 0 then None else                                    (* fseeko fails *)
  let parse e s := parse_records (do_record false b e) (ih_version h) (Z.to_nat (ih_odata h)) (Z.to_nat (ih_ndata h)) f s in
  let reset s := mkDo (do_max s) 0 (do_in s) (do_buf s) (do_outs s) in
  match parse e s0 with
  | Some (true, s1) =>
      if negb (ih_finished h =? FIN_NORMAL) && (do_max s1 <? e) then
        match parse (do_max s1) (reset s1) with
        | Some (true, s2) => Some (u32 (do_count s2), do_max s1, reset s2)
        | _ => None
        end
      else Some (u32 (do_count s1), e, reset s1)
  | _ => None
  end.

(** sapi.c 1344-1357, 1385-1397: whole blocks copied from the file *)
Fixpoint copy_blocks (n pos : nat) (f : list Z) : list out :=
  match n with
  | O => []
  | S k => match fread pos 16 f with None => [Broken] | Some b => Chunk b :: copy_blocks k (pos + 16) f end
  end.

(** the number of passages of [while(size > 16) size -= 16] *)
Definition whole_blocks (size : Z) : Z := if 16 <? size then (size - 1) / 16 else 0.

(** sapi.c 1365-1417: the skip records *)
Definition skip_outs (f : list Z) (h : inithdr) : list out :=
  if negb (ih_finished h =? 0) && negb (ih_nskip h =? 0) then
    if ih_oskip h <? 0 then [Broken] else
    let pos := Z.to_nat (ih_oskip h) in
    let size := u32 (ih_nskip h * 8) in
    let n := whole_blocks size in
    let rest := size - 16 * n in
    copy_blocks (Z.to_nat n) pos f ++
    (if 0 <? rest then
       match fread (pos + 16 * Z.to_nat n) (Z.to_nat rest) f with
       | None => [Broken]
       | Some b => [Chunk (b ++ zeros (16 - Z.to_nat rest))]
       end
     else [])
  else [].

(** sapi.c 1428-1474: the data records; [e], [s]: end and state left by the counting *)
Definition data_outs (f : list Z) (h : inithdr) (b e sendrecs : Z) (s : dostate) : list out :=
  if sendrecs =? 0 then [] else
  if ih_odata h <? 0 then [Broken] else
  match parse_records (do_record true b e) (ih_version h) (Z.to_nat (ih_odata h)) (Z.to_nat (ih_ndata h)) f s with
  | Some (ok, s') =>
      do_outs s' ++
      (if negb ok || negb (do_count s' =? sendrecs) then [Broken] else
       if do_in s' =? 0 then [] else
       let blks := Z.to_nat (do_in s' * ih_recsize h / 16 + 1) in
       [Chunk (do_buf s' ++ zeros (16 * blks - length (do_buf s')))])
  | None => [Broken]
  end.

(** sapi.c 1213-1485 for a settled file: count, acknowledge, request, skip records, data records.
    A size of the request that is not a multiple of 16 is only reported. *)
Definition transfer (f : list Z) (h : inithdr) (b e : Z) : fetched :=
  match count_records f h b e with
  | None => FFailed
  | Some (sendrecs, e', s) =>
      let next := if ih_finished h =? 0 then 0 else ih_next h in
      let nskip := if ih_finished h =? 0 then 0 else ih_nskip h in
      let size := if ih_oskip h =? 0 then ih_odata h else ih_oskip h in
      let size := (if ih_odata h =? 0 then size else Z.min size (ih_odata h)) - 40 in
      FSend (ih_finished h) next nskip sendrecs (fread 40 112 f)
        (copy_blocks (Z.to_nat (whole_blocks (size - 112))) 152 f ++ [Seal] ++
         skip_outs f h ++ [Seal] ++
         data_outs f h b e' sendrecs s ++ [Seal])
  end.

(** sapi.c 1085-1485: the file of the session was opened ([None]: it was not).  11 passages are
    enough, see [settle_ends]. *)
Definition look (tries : option (nat -> list Z * lock)) (b e : Z) : fetched :=
  match tries with
  | None => FReject
  | Some tries =>
      match settle 11 0 0 0 tries b e with
      | Settled f h => transfer f h b e
      | Rejected => FReject
      | Failed | Endless => FFailed
      end
  end.

(** ** The client *)
Section Client.
Variable E D H : list Z -> list Z -> list Z.

(** _OWPReceiveBlocksIntr of [n] blocks into the local buffer and _OWPRecvHMACAdd (the message
    buffer of the connection is not touched) *)
Definition take_blocks (c : ctl) (n : nat) : option (list Z) * ctl :=
  match recv_blocks D c 0 n with
  | (IODone, c1) => (Some (sub 0 (16 * n) (msg c1)), set_msg (rhm_add c1 0 n) (msg c))
  | (_, c1) => (None, set_msg c1 (msg c))
  end.

(** a code block: _OWPReceiveBlocksIntr of one block and _OWPRecvHMACCheckClear *)
Definition take_code (c : ctl) : bool * ctl :=
  match recv_blocks D c 0 1 with
  | (IODone, c1) => let (ok, c2) := rhm_check H c1 0 in (ok, set_msg c2 (msg c))
  | (_, c1) => (false, set_msg c1 (msg c))
  end.

(** [k] groups of [n] blocks, of each of which all octets are written to the file *)
Fixpoint take_groups (c : ctl) (k n : nat) : option (list Z) * ctl :=
  match k with
  | O => (Some [], c)
  | S k =>
      match take_blocks c n with
      | (Some a, c) =>
          match take_groups c k n with
          | (Some l, c) => (Some (a ++ l), c)
          | r => r
          end
      | r => r
      end
  end.

(** capi.c 1560-1597: the skip records, octets written to the file *)
Definition take_skips (c : ctl) (nskips : Z) : option (list Z) * ctl :=
  let size := u32 (nskips * 8) in
  let n := whole_blocks size in
  match take_groups c (Z.to_nat n) 1 with
  | (None, c) => (None, c)
  | (Some a, c) =>
      let rest := size - 16 * n in
      if rest =? 0 then (Some a, c) else
      match take_blocks c 1 with
      | (Some l, c) => (Some (a ++ firstn (Z.to_nat rest) l), c)
      | r => r
      end
  end.

(** capi.c 1614-1656: the data records *)
Definition take_records (c : ctl) (n : Z) : option (list Z) * ctl :=
  match take_groups c (Z.to_nat (n / 16)) 25 with
  | (None, c) => (None, c)
  | (Some a, c) =>
      let rest := n mod 16 in
      if rest =? 0 then (Some a, c) else
      match take_blocks c (Z.to_nat (rest * 25 / 16 + 1)) with
      | (Some l, c) => (Some (a ++ firstn (25 * Z.to_nat rest) l), c)
      | r => r
      end
  end.

(** capi.c 1434-1687: OWPFetchSession.  [junk]: as for [write_header]; [alloc], [slots]: as for
    [read_test_request].  Result: severity, return value, the octets written to the file.  Writing to
    the file is assumed to succeed; what is written before a failure is not shown. *)
Definition fetch_session (junk : list Z) (alloc slots : bool) (c : ctl) (b e : Z) (sid : list Z) : Z * Z * list Z * ctl :=
  if twoway c then (ErrFATAL, 0, [], c) else
  let (rc, c) := write_fetch E H c b e sid in
  if rc <? ErrWARNING then (rc, 0, [], invalid c) else
  let '(rc, (a, fin, next, nskips, ndata), c) := read_fetch_ack D H c in
  if rc <? ErrWARNING then (rc, 0, [], invalid c) else
  if negb (a =? CNTRL_ACCEPT) then (rc, 0, [], c) else
  match read_test_request D H c false alloc slots with
  | (rc, Some q, _, c) =>
      if negb (rc =? ErrOK) then (rc, 0, [], invalid c) else
      let h := mkHdr 0 0 false fin next nskips ndata 0 0 (q_sender q) (q_receiver q) (q_conf_sender q) (q_conf_receiver q)
                 (q_sid q) (q_spec q) in
      let hdr := write_header junk h in
      match take_skips c nskips with
      | (None, c) => (ErrFATAL, 0, [], invalid c)
      | (Some skips, c) =>
          match take_code c with
          | (false, c) => (ErrFATAL, 0, [], invalid c)
          | (true, c) =>
              match take_records c ndata with
              | (None, c) => (ErrFATAL, 0, [], invalid c)
              | (Some recs, c) =>
                  match take_code c with
                  | (false, c) => (ErrFATAL, 0, [], invalid c)
                  | (true, c) =>
                      let c := or_st (clr_st c StFetching) StRequest in
                      match hdr with
                      | None => (ErrWARNING, 0, [], c)
                      | Some hd => (ErrOK, ndata, hd ++ skips ++ recs, c)
                      end
                  end
              end
          end
      end
  | (rc, None, _, c) => (rc, 0, [], invalid c)
  end.

End Client.
