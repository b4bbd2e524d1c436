(** Model of the statistics of two-way sessions, made with a new statistics object: owamp/stats.c.
    Not modelled: minimum and maximum delays and error estimates (floating point), output of single
    records, memory allocation failures, a second use of the object.  There are no skip records: two-way
    sessions have none (endpoint.c 845-846), [skips] is NULL.  Hash tables (I2util) hold what was stored
    and not deleted. *)
From Coq Require Import ZArith List Bool.
From Verif Require Import Base Arith_Model Time_Model Wire_Model File_Model Stats_Model.
Import ListNotations.
Open Scope Z_scope.

(** owamp.h 1548-1559: OWPPacketRec; the list pointers and the hash table are the list of nodes below *)
Record tpkt := mkTP { n_seq : Z; n_time : Z; n_seen : Z; n_lost : bool; n_assoc : Z }.

(** One of the two packet buffers: the nodes from pbegin to pend; isctx; the nodes of the free list.  Of
    a released node only associated_seq matters: stats.c 83-86, 189-193 set all other fields. *)
Record tbuf := mkTBuf { tb_list : list tpkt; tb_isctx : Z; tb_free : list Z }.

(** the packet part of the statistics object.  [q_gen]: deltas drawn from the schedule context *)
Record tpk := mkTPk { q_fwd : tbuf; q_bck : tbuf; q_gen : nat; q_endnum : Z; q_lost : Z; q_dups0 : Z; q_dups1 : Z; q_end_time : Z }.
Definition tbuffer (bck : bool) (k : tpk) : tbuf := if bck then q_bck k else q_fwd k.
Definition tset_buf (bck : bool) (b : tbuf) (k : tpk) : tpk :=
  if bck then mkTPk (q_fwd k) b (q_gen k) (q_endnum k) (q_lost k) (q_dups0 k) (q_dups1 k) (q_end_time k)
  else mkTPk b (q_bck k) (q_gen k) (q_endnum k) (q_lost k) (q_dups0 k) (q_dups1 k) (q_end_time k).

(** The statistics object.  [h_rt], [h_fwd], [h_bck]: buckets with the number of samples for OWP_DELAY,
    TWP_FWD_DELAY and TWP_BCK_DELAY; counters are not reduced modulo 2^32, a parse looks at fewer than
    2^32 records. *)
Record tstats := mkTSt { h_first : Z; h_last : Z; h_sent : Z; h_pk : tpk; h_rt : list (Z * Z); h_fwd : list (Z * Z); h_bck : list (Z * Z);
  h_ttl0 : list Z; h_ttl1 : list Z; h_sync : bool; h_offset : bool; h_start_time : Z; h_i : Z; h_begin : Z; h_next : Z }.

Section StatsTW.
(** header of the session: test_spec.start_time, loss_timeout, npackets; rec_size *)
Variable start timeout npackets rec_size : Z.
(** successive results of OWPScheduleContextGenerateNextDelta after a reset of the context *)
Variable delta : nat -> Z.
(** stats.c 485-486 with capi.c 1391-1398: bucket of the delay between two time stamps, and whether it
    is negative (floating point); stats.c 1439-1443: bucket of the round-trip time of a record *)
Variable bucket : timestamp -> timestamp -> Z.
Variable negative : timestamp -> timestamp -> bool.
Variable bucket_rt : twrec -> Z.

(** stats.c 157-193: take a node off the free list, after putting plistlen-1 new ones there if it is
    empty; stats.c 816-832: plistlen is 10 for two-way sessions.  The result: associated_seq of the node. *)
Definition take_free (f : list Z) : Z * list Z :=
  match f with a :: r => (a, r) | [] => (0, repeat 0 8) end.

(** stats.c 262-283: extend the buffer by [n] nodes.  [None]: the assertion fails, or PacketAlloc
    (stats.c 140-208) refuses the number and NULL is used.  Node numbers do not wrap, they are at most
    "last" or, in the second buffer, at most a number requested. *)
Fixpoint tgrow (n : nat) (bck : bool) (last : Z) (k : tpk) : option tpk :=
  match n with
  | O => Some k
  | S n =>
      let b := tbuffer bck k in
      match tb_list b with
      | [] => None
      | p :: r =>
          let e := n_seq (List.last r p) in
          if negb (e + 1 =? tb_isctx b) then None else
          let k := if bck then k
                   else mkTPk (q_fwd k) (q_bck k) (S (q_gen k)) (OWPNum64Add (q_endnum k) (delta (q_gen k))) (q_lost k) (q_dups0 k) (q_dups1 k) (q_end_time k) in
          if negb bck && (last <? e + 1) then None else
          let '(a, f) := take_free (tb_free b) in
          tgrow n bck last (tset_buf bck (mkTBuf (tb_list b ++ [mkTP (e + 1) (q_endnum k) 0 false a]) (tb_isctx b + 1) f) k)
      end
  end.

(** stats.c 229-309: PacketGet *)
Inductive tgot := TNode (k : tpk) (p : tpkt) | TNull | TCrash.
Definition tfetch (bck : bool) (seq : Z) (k : tpk) : tgot :=
  match find (fun p => n_seq p =? seq) (tb_list (tbuffer bck k)) with Some p => TNode k p | None => TNull end.
Definition tpacket_get (bck : bool) (first last seq : Z) (k : tpk) : tgot :=
  match tb_list (tbuffer bck k) with
  | [] => TCrash                  (* pend is a released node *)
  | b :: r =>
      let e := n_seq (List.last r b) in
      if seq =? e then tfetch bck seq k else
      if (seq <? first) || (negb bck && (last <? seq)) then TNull else
      if e <? seq then match tgrow (Z.to_nat (seq - e)) bck last k with None => TCrash | Some k => tfetch bck seq k end else
      if seq <? n_seq b then TNull else
      tfetch bck seq k
  end.

(** stats.c 70-91: PacketFree of the first node, after pbegin was moved *)
Definition tfree (n : tpkt) (rest : list tpkt) (b : tbuf) : tbuf := mkTBuf rest (tb_isctx b) (n_assoc n :: tb_free b).

(** stats.c 939-1003: PacketBeginFlush; the boolean: keep_parsing.  [None]: assertion, released node or
    NULL.  An empty list afterwards: pbegin is NULL (with True) or a released node (with False). *)
Definition tbegin_flush (bck : bool) (first last : Z) (k : tpk) : option (bool * tpk) :=
  match tb_list (tbuffer bck k) with
  | [] => None
  | n :: rest =>
      if n_lost n && bck then None else
      let k := if n_lost n then mkTPk (q_fwd k) (q_bck k) (q_gen k) (q_endnum k) (q_lost k + 1) (q_dups0 k) (q_dups1 k) (n_time n) else
               if n_seen n =? 0 then mkTPk (q_fwd k) (q_bck k) (q_gen k) (q_endnum k) (q_lost k) (q_dups0 k) (q_dups1 k) (n_time n) else
               if bck then mkTPk (q_fwd k) (q_bck k) (q_gen k) (q_endnum k) (q_lost k) (q_dups0 k) (q_dups1 k + (n_seen n - 1)) (n_time n)
               else mkTPk (q_fwd k) (q_bck k) (q_gen k) (q_endnum k) (q_lost k) (q_dups0 k + (n_seen n - 1)) (q_dups1 k) (n_time n) in
      match rest with
      | _ :: _ => Some (true, tset_buf bck (tfree n rest (tbuffer bck k)) k)
      | [] =>
          if u32 (n_seq n + 1) <? last then
            match tpacket_get bck first last (u32 (n_seq n + 1)) k with
            | TNode k _ => Some (true, tset_buf bck (tfree n (tl (tb_list (tbuffer bck k))) (tbuffer bck k)) k)
            | TNull => Some (true, tset_buf bck (tfree n [] (tbuffer bck k)) k)
            | TCrash => None
            end
          else Some (false, tset_buf bck (tfree n [] (tbuffer bck k)) k)
      end
  end.

(** stats.c 1285-1317: the loops that flush one of the buffers; [more]: their condition on the first
    node.  [fuel]: more than the number of nodes that can satisfy it suffices *)
Inductive tflushed := MGo (k : tpk) | MErr (k : tpk) | MCrash.
Fixpoint tflush_while (fuel : nat) (bck : bool) (more : tpkt -> bool) (first last : Z) (k : tpk) : tflushed :=
  match fuel, tb_list (tbuffer bck k) with
  | O, _ | _, [] => MCrash
  | S fuel, n :: _ =>
      if more n then
        match tbegin_flush bck first last k with
        | None => MCrash
        | Some (true, k) => tflush_while fuel bck more first last k
        | Some (false, k) => MErr k
        end
      else MGo k
  end.

(** stats.c 1314-1322: flush the reflected packets before the one associated with the first sent packet *)
Definition tsync (first last : Z) (k : tpk) : tflushed :=
  match tb_list (q_fwd k), tb_list (q_bck k) with
  | p :: _, b :: _ => tflush_while (S (Z.to_nat (n_assoc p - n_seq b))) true (fun n => n_seq n <? n_assoc p) first last k
  | _, _ => MCrash
  end.

(** change the node of [seq] *)
Definition tset_pkt (bck : bool) (seq : Z) (p' : tpkt) (k : tpk) : tpk :=
  let b := tbuffer bck k in
  tset_buf bck (mkTBuf (map (fun p => if n_seq p =? seq then p' else p) (tb_list b)) (tb_isctx b) (tb_free b)) k.

(** api.c 3742-3748: OWPIsLostRecord of the first half of the record *)
Definition tis_lost (r : twrec) : bool := owptime (r_recv (tw_sent r)) =? 0.
Definition bump (t : Z) (l : list Z) : list Z := upd (Z.to_nat t) (nth (Z.to_nat t) l 0 + 1) l.

(** stats.c 1238-1554: IterateSummarizeTWSession; return value and the object *)
Inductive tstep := TRet (rc : Z) (g : tstats) | TSCrash.
Definition titerate (r : twrec) (g : tstats) : tstep :=
  let seq := r_seq (tw_sent r) in
  let rseq := r_seq (tw_refl r) in
  let first := h_first g in
  let last := h_last g in
  let next := if (h_next g =? 0) && (last <=? seq) then h_begin g + h_i g * rec_size else h_next g in
  let mk sent k rt fw bk t0 t1 sy off := mkTSt first last sent k rt fw bk t0 t1 sy off (h_start_time g) (h_i g + 1) (h_begin g) next in
  let with_pk k := mk (h_sent g) k (h_rt g) (h_fwd g) (h_bck g) (h_ttl0 g) (h_ttl1 g) (h_sync g) (h_offset g) in
  if (seq <? first) || (last <=? seq) then TRet 0 (with_pk (h_pk g)) else
  let thresh := OWPNum64Sub (owptime (r_send (tw_sent r))) timeout in
  let more n := if tis_lost r then n_seq n <? seq else n_time n <? thresh in
  match tflush_while (fuel_for first last) false more first last (h_pk g) with
  | MCrash => TSCrash
  | MErr k => TRet (-1) (with_pk k)
  | MGo k =>
  match tsync first last k with
  | MCrash => TSCrash
  | MErr k => TRet (-1) (with_pk k)
  | MGo k =>
  match tpacket_get false first last seq k with
  | TCrash => TSCrash
  | TNull => TRet (-1) (with_pk k)
  | TNode k n =>
      if tis_lost r then
        if negb (n_seen n =? 0) then TRet (-1) (with_pk k) else
        TRet 0 (mk (h_sent g + 1) (tset_pkt false seq (mkTP (n_seq n) (n_time n) (n_seen n) true (n_assoc n)) k)
                  (h_rt g) (h_fwd g) (h_bck g) (h_ttl0 g) (h_ttl1 g) (if sync (r_recv (tw_sent r)) =? 0 then false else h_sync g) (h_offset g))
      else if n_lost n then TRet (-1) (with_pk k) else
      match tpacket_get true first last rseq k with
      | TCrash => TSCrash
      | TNull => TRet (-1) (with_pk k)
      | TNode k b =>
          if negb (n_seen b =? 0) && negb (n_assoc b =? seq) then TRet (-1) (with_pk k) else
          let b' := mkTP (n_seq b) (n_time b) (n_seen b + 1) (n_lost b) seq in
          let n' := if n_seen n =? 0 then mkTP (n_seq n) (n_time n) 1 (n_lost n) rseq else
                    if negb (n_assoc n =? rseq) && (n_seen b' =? 1) then mkTP (n_seq n) (n_time n) (n_seen n + 1) (n_lost n) (n_assoc n) else n in
          let k := tset_pkt false seq n' (tset_pkt true rseq b' k) in
          let sent := if n_seen n =? 0 then h_sent g + 1 else h_sent g in
          let off := h_offset g || negative (r_send (tw_sent r)) (r_recv (tw_sent r)) || negative (r_send (tw_refl r)) (r_recv (tw_refl r)) in
          if (1 <? n_seen n') || (1 <? n_seen b')
          then TRet 0 (mk sent k (h_rt g) (h_fwd g) (h_bck g) (h_ttl0 g) (h_ttl1 g) (h_sync g) off)
          else TRet 0 (mk sent k (increment (bucket_rt r) (h_rt g)) (increment (bucket (r_send (tw_sent r)) (r_recv (tw_sent r))) (h_fwd g))
                         (increment (bucket (r_send (tw_refl r)) (r_recv (tw_refl r))) (h_bck g))
                         (bump (r_ttl (tw_sent r)) (h_ttl0 g)) (bump (r_ttl (tw_refl r)) (h_ttl1 g)) (h_sync g) off)
      end
  end end end.

(** stats.c 1795-1797: flush what is left *)
Fixpoint tflush_all (fuel : nat) (bck : bool) (first last : Z) (k : tpk) : option tpk :=
  match fuel, tb_list (tbuffer bck k) with
  | O, _ => None
  | S _, [] => Some k
  | S fuel, _ =>
      match tbegin_flush bck first last k with
      | None => None
      | Some (true, k) => tflush_all fuel bck first last k
      | Some (false, k) => Some k
      end
  end.

(** stats.c 1618-1794, up to the iteration, for a new object (stats.c 803-857).  [None]: the loop of
    lines 1717-1721 does not end (isctx is a 32 bit number and always at most first) *)
Definition tprepare (begin first last : Z) (odata : Z) : option tstats :=
  if first =? 4294967295 then None else
  let '(gen, endnum) := draw delta (Z.to_nat (first + 1)) O start in
  let b := mkTBuf [mkTP first endnum 0 false 0] (first + 1) (repeat 0 8) in
  Some (mkTSt first last 0 (mkTPk b b gen endnum 0 0 0 0) [] [] [] (repeat 0 256) (repeat 0 256) true false endnum 0 (Z.max begin odata) 0).

(** the callback for OWPParseTWRecords; the state remembers a crash *)
Definition tcallback (r : twrec) (s : option tstats) : Z * option tstats :=
  match s with
  | None => (-1, None)
  | Some g => match titerate r g with TRet rc g => (rc, Some g) | TSCrash => (-1, None) end
  end.

(** stats.c 1618-1837: OWPStatsParse for two-way sessions, with a new object.  [odata], [oskip],
    [version]: from the header of the file [f]; [limit]: rec_limit *)
Inductive tparsed := TPOk (g : tstats) | TPFail | TPCrash.
Definition tparse (version odata oskip limit : Z) (f : list Z) (begin first last : Z) : tparsed :=
  let last := if last =? 4294967295 then npackets else last in
  if (last <? first) || (npackets <? last) then TPFail else
  let fileend := if odata <? oskip then oskip else Z.of_nat (length f) in
  match tprepare begin first last odata with
  | None => TPCrash
  | Some g =>
      let nrecs := u32 (Z.quot (fileend - h_begin g) rec_size) in
      let nrecs := if (0 <? limit) && (limit <? nrecs) then limit else nrecs in
      match parse_tw_records tcallback version (Z.to_nat (h_begin g)) (Z.to_nat nrecs) f (Some g) with
      | (true, Some g) =>
          match tflush_all (fuel_for first last) false first last (h_pk g) with
          | None => TPCrash
          | Some k =>
              match tflush_all (length (tb_list (q_bck k)) + fuel_for first last) true first last k with
              | None => TPCrash
              | Some k => TPOk (mkTSt (h_first g) (h_last g) (h_sent g) k (h_rt g) (h_fwd g) (h_bck g) (h_ttl0 g) (h_ttl1 g) (h_sync g) (h_offset g)
                                  (h_start_time g) (h_i g) (h_begin g) (h_next g))
              end
          end
      | (false, Some _) => TPFail
      | (_, None) => TPCrash
      end
  end.
End StatsTW.
