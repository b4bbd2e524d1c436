(** Model of the statistics of one-way sessions: owamp/stats.c.
    Not modelled: min/max delays and error estimates (floating point), output of single records,
    memory allocation failures.  Hash tables (I2util) hold what was stored and not deleted. *)
From Coq Require Import ZArith List Bool.
From Verif Require Import Base Arith_Model Time_Model Wire_Model File_Model.
Import ListNotations.
Open Scope Z_scope.

(** owamp.h 1548-1559: OWPPacketRec (associated_seq is for two-way sessions only); the list pointers and the hash table are the list of packets below *)
Record pkt := mkPkt { k_seq : Z; k_time : Z; k_seen : Z; k_lost : bool }.

(** One of the two packet buffers: the nodes from pbegin to pend (these are also the entries of the
    hash table), the number found through pend when there is no node ([None]: pend is NULL; a released
    node has number 0, stats.c 84), and isctx. *)
Record pbuf := mkBuf { b_list : list pkt; b_end : option Z; b_isctx : Z }.
Definition end_seq (b : pbuf) : option Z :=
  match b_list b with [] => b_end b | p :: r => Some (k_seq (last r p)) end.

(** the packet part of the statistics object.  [p_gen]: deltas drawn from the schedule context since
    its last reset; [p_skips]: the skip records from iskip on *)
Record pk := mkPk { p_fwd : pbuf; p_bck : pbuf; p_gen : nat; p_endnum : Z; p_skips : list skiprec;
  p_lost : Z; p_dups0 : Z; p_dups1 : Z; p_end_time : Z }.
Definition buf (bck : bool) (k : pk) : pbuf := if bck then p_bck k else p_fwd k.
Definition set_buf (bck : bool) (b : pbuf) (k : pk) : pk :=
  if bck then mkPk (p_fwd k) b (p_gen k) (p_endnum k) (p_skips k) (p_lost k) (p_dups0 k) (p_dups1 k) (p_end_time k)
  else mkPk b (p_bck k) (p_gen k) (p_endnum k) (p_skips k) (p_lost k) (p_dups0 k) (p_dups1 k) (p_end_time k).

(** the reordering part *)
Record reord := mkRo { o_seqno : list Z; o_n : list Z; o_index : Z; o_num : Z }.

(** The statistics object.  [g_hist]: buckets with the number of samples for OWP_DELAY;
    counters are not reduced modulo 2^32, a parse looks at fewer than 2^32 records. *)
Record stats := mkSt { g_first : Z; g_last : Z; g_sent : Z; g_pk : pk; g_ro : reord; g_hist : list (Z * Z); g_ttl : list Z;
  g_sync : bool; g_start_time : Z; g_i : Z; g_begin : Z; g_next : Z }.

Section Stats.
(** header of the session: test_spec.start_time, loss_timeout, npackets; rec_size; the skip records *)
Variable start timeout npackets rec_size : Z.
Variable skips : list skiprec.
(** successive results of OWPScheduleContextGenerateNextDelta after a reset of the context *)
Variable delta : nat -> Z.
(** length of the reordering buffers, at least 10: stats.c 832, 918 *)
Variable rlistlen : nat.
(** stats.c 485-486 with capi.c 1391-1398: bucket of the delay between two time stamps (floating point) *)
Variable bucket : timestamp -> timestamp -> Z.

(** stats.c 140-208: PacketAlloc; refuses numbers above "last" and numbers not above the end *)
Definition alloc_ok (bck : bool) (last seq : Z) (b : pbuf) : bool :=
  negb ((negb bck && (last <? seq)) || match end_seq b with Some e => seq <=? e | None => false end).

(** stats.c 262-283: extend the buffer by [n] nodes.  [None]: the assertion fails or NULL is used.
    Node numbers do not wrap, they are at most "last" (for the second buffer: requested numbers). *)
Fixpoint grow (n : nat) (bck : bool) (last : Z) (k : pk) : option pk :=
  match n with
  | O => Some k
  | S n =>
      let b := buf bck k in
      match end_seq b with
      | None => None
      | Some e =>
          if negb (e + 1 =? b_isctx b) then None else
          let k := if bck then k
                   else mkPk (p_fwd k) (p_bck k) (S (p_gen k)) (OWPNum64Add (p_endnum k) (delta (p_gen k))) (p_skips k)
                          (p_lost k) (p_dups0 k) (p_dups1 k) (p_end_time k) in
          if alloc_ok bck last (e + 1) b
          then grow n bck last (set_buf bck (mkBuf (b_list b ++ [mkPkt (e + 1) (p_endnum k) 0 false]) (b_end b) (b_isctx b + 1)) k)
          else None
      end
  end.

(** stats.c 229-309: PacketGet *)
Inductive got := GNode (k : pk) (p : pkt) | GNull | GCrash.
Definition fetch (bck : bool) (seq : Z) (k : pk) : got :=
  match find (fun p => k_seq p =? seq) (b_list (buf bck k)) with Some p => GNode k p | None => GNull end.
Definition packet_get (bck : bool) (first last seq : Z) (k : pk) : got :=
  match end_seq (buf bck k), b_list (buf bck k) with
  | None, _ | _, [] => GCrash                  (* pend is NULL, or a released node *)
  | Some e, b :: _ =>
      if seq =? e then fetch bck seq k else
      if (seq <? first) || (negb bck && (last <? seq)) then GNull else
      if e <? seq then match grow (Z.to_nat (seq - e)) bck last k with None => GCrash | Some k => fetch bck seq k end else
      if seq <? k_seq b then GNull else
      fetch bck seq k
  end.

(** stats.c 956-959 *)
Fixpoint skip_advance (seq : Z) (l : list skiprec) : list skiprec :=
  match l with s :: r => if sk_end s <? seq then skip_advance seq r else l | [] => [] end.

(** stats.c 939-1003: PacketBeginFlush; the boolean: keep_parsing.  [None]: assertion, NULL or released node *)
Definition begin_flush (bck : bool) (first last : Z) (k : pk) : option (bool * pk) :=
  match b_list (buf bck k) with
  | [] => None
  | n :: rest =>
      let sk := skip_advance (k_seq n) (p_skips k) in
      let skipped := match sk with s :: _ => sk_begin s <=? k_seq n | [] => false end in
      if negb skipped && k_lost n && bck then None else
      let k := if skipped then mkPk (p_fwd k) (p_bck k) (p_gen k) (p_endnum k) sk (p_lost k) (p_dups0 k) (p_dups1 k) (k_time n) else
               if k_lost n then mkPk (p_fwd k) (p_bck k) (p_gen k) (p_endnum k) sk (p_lost k + 1) (p_dups0 k) (p_dups1 k) (k_time n) else
               if k_seen n =? 0 then mkPk (p_fwd k) (p_bck k) (p_gen k) (p_endnum k) sk (p_lost k) (p_dups0 k) (p_dups1 k) (k_time n) else
               if bck then mkPk (p_fwd k) (p_bck k) (p_gen k) (p_endnum k) sk (p_lost k) (p_dups0 k) (p_dups1 k + (k_seen n - 1)) (k_time n)
               else mkPk (p_fwd k) (p_bck k) (p_gen k) (p_endnum k) sk (p_lost k) (p_dups0 k + (k_seen n - 1)) (p_dups1 k) (k_time n) in
      let b := buf bck k in
      match rest with
      | _ :: _ => Some (true, set_buf bck (mkBuf rest (b_end b) (b_isctx b)) k)
      | [] =>
          if k_seq n + 1 <? last then
            match packet_get bck first last (k_seq n + 1) k with
            | GNode k _ => Some (true, set_buf bck (mkBuf (tl (b_list (buf bck k))) (b_end (buf bck k)) (b_isctx (buf bck k))) k)
            | _ => None
            end
          else Some (false, set_buf bck (mkBuf [] (Some 0) (b_isctx b)) k)
      end
  end.

(** stats.c 1043-1070: the two loops that flush; [more]: their condition on the first node.
    [fuel]: more than the number of packets suffices *)
Inductive flushed := LGo (k : pk) | LErr (k : pk) | LCrash.
Fixpoint flush_while (fuel : nat) (more : pkt -> bool) (first last : Z) (k : pk) : flushed :=
  match fuel, b_list (p_fwd k) with
  | O, _ | _, [] => LCrash
  | S fuel, n :: _ =>
      if more n then
        match begin_flush false first last k with
        | None => LCrash
        | Some (true, k) => flush_while fuel more first last k
        | Some (false, k) => LErr k
        end
      else LGo k
  end.
Definition fuel_for (first last : Z) : nat := S (S (Z.to_nat (last - first))).

(** stats.c 1143-1157: j-reordering.  [reorder_count i n ro]: the loop from index i on, at most n times *)
Definition rseqindex (x : Z) : nat := Z.to_nat (if 0 <=? x then x else x + Z.of_nat rlistlen).
Fixpoint reorder_count (i n : nat) (seq : Z) (ro : reord) : list Z :=
  match n with
  | O => o_n ro
  | S n =>
      if seq <? nth (rseqindex (o_index ro - Z.of_nat i - 1)) (o_seqno ro) 0
      then reorder_count (S i) n seq (mkRo (o_seqno ro) (upd i (nth i (o_n ro) 0 + 1) (o_n ro)) (o_index ro) (o_num ro))
      else o_n ro
  end.
Definition reorder (seq : Z) (ro : reord) : reord :=
  mkRo (upd (Z.to_nat (o_index ro)) seq (o_seqno ro))
    (reorder_count 0 (Z.to_nat (Z.min (o_num ro) (Z.of_nat rlistlen))) seq ro)
    ((o_index ro + 1) mod Z.of_nat rlistlen) (o_num ro + 1).

(** stats.c 467-545: BucketIncrementDelay *)
Fixpoint increment (b : Z) (h : list (Z * Z)) : list (Z * Z) :=
  match h with
  | [] => [(b, 1)]
  | (x, n) :: r => if x =? b then (x, n + 1) :: r else (x, n) :: increment b r
  end.

(** change the node of [seq] *)
Definition set_pkt (seq : Z) (f : pkt -> pkt) (k : pk) : pk :=
  set_buf false (mkBuf (map (fun p => if k_seq p =? seq then f p else p) (b_list (p_fwd k))) (b_end (p_fwd k)) (b_isctx (p_fwd k))) k.

(** api.c 3742-3748: OWPIsLostRecord *)
Definition is_lost_rec (r : datarec) : bool := owptime (r_recv r) =? 0.
Definition in_skip (seq : Z) (l : list skiprec) : bool := existsb (fun s => (sk_begin s <=? seq) && (seq <=? sk_end s)) l.

(** stats.c 1005-1235: IterateSummarizeSession; return value and the object.  [SCrash]: as above *)
Inductive sstep := SRet (rc : Z) (g : stats) | SCrash.
Definition iterate (r : datarec) (g : stats) : sstep :=
  let seq := r_seq r in
  let next := if (g_next g =? 0) && (g_last g <=? seq) then g_begin g + g_i g * rec_size else g_next g in
  let g := mkSt (g_first g) (g_last g) (g_sent g) (g_pk g) (g_ro g) (g_hist g) (g_ttl g) (g_sync g) (g_start_time g) (g_i g + 1) (g_begin g) next in
  let with_pk k := mkSt (g_first g) (g_last g) (g_sent g) k (g_ro g) (g_hist g) (g_ttl g) (g_sync g) (g_start_time g) (g_i g) (g_begin g) (g_next g) in
  if (seq <? g_first g) || (g_last g <=? seq) then SRet 0 g else
  let thresh := OWPNum64Sub (owptime (r_recv r)) timeout in
  let more n := if is_lost_rec r then k_seq n <? seq else k_time n <? thresh in
  match flush_while (fuel_for (g_first g) (g_last g)) more (g_first g) (g_last g) (g_pk g) with
  | LCrash => SCrash
  | LErr k => SRet (-1) (with_pk k)
  | LGo k =>
      match packet_get false (g_first g) (g_last g) seq k with
      | GCrash => SCrash
      | GNull => SRet (-1) (with_pk k)
      | GNode k n =>
          if in_skip (k_seq n) (p_skips k) then SRet 0 (with_pk k) else
          if is_lost_rec r then
            if negb (k_seen n =? 0) then SRet (-1) (with_pk k) else
            SRet 0 (mkSt (g_first g) (g_last g) (g_sent g + 1)
                      (set_pkt seq (fun p => mkPkt (k_seq p) (k_time p) (k_seen p) true) k)
                      (g_ro g) (g_hist g) (g_ttl g) (if sync (r_recv r) =? 0 then false else g_sync g) (g_start_time g) (g_i g) (g_begin g) (g_next g))
          else if k_lost n then SRet (-1) (with_pk k) else
            let dup := negb (k_seen n =? 0) in
            SRet 0 (mkSt (g_first g) (g_last g) (if dup then g_sent g else g_sent g + 1)
                      (set_pkt seq (fun p => mkPkt (k_seq p) (k_time p) (k_seen p + 1) (k_lost p)) k)
                      (reorder seq (g_ro g))
                      (if dup then g_hist g else increment (bucket (r_send r) (r_recv r)) (g_hist g))
                      (if dup then g_ttl g else upd (Z.to_nat (r_ttl r)) (nth (Z.to_nat (r_ttl r)) (g_ttl g) 0 + 1) (g_ttl g))
                      (if (sync (r_send r) =? 0) || (sync (r_recv r) =? 0) then false else g_sync g)
                      (g_start_time g) (g_i g) (g_begin g) (g_next g))
      end
  end.

(** stats.c 1795-1797: flush what is left; the result of the last call is not used *)
Fixpoint flush_all (fuel : nat) (bck : bool) (first last : Z) (k : pk) : option pk :=
  match fuel with
  | O => None
  | S fuel =>
      match begin_flush bck first last k with
      | None => None
      | Some (true, k) => flush_all fuel bck first last k
      | Some (false, k) => Some k
      end
  end.

(** stats.c 1711-1722: advance the schedule to packet [first] *)
Fixpoint draw (n : nat) (gen : nat) (endnum : Z) : nat * Z :=
  match n with O => (gen, endnum) | S n => draw n (S gen) (OWPNum64Add endnum (delta gen)) end.

(** stats.c 1731-1747: clean the buffer (released nodes have number 0, pend is not touched otherwise),
    allocate the first node.  [None]: PacketAlloc returned NULL, which is then used. *)
Definition first_node (bck : bool) (first last : Z) (k : pk) : option pk :=
  let b := buf bck k in
  let b := mkBuf [] (match end_seq b with None => None | Some _ => Some 0 end) (b_isctx b) in
  if alloc_ok bck last first b
  then Some (set_buf bck (mkBuf [mkPkt first (p_endnum k) 0 false] (b_end b) (b_isctx b)) k)
  else None.

(** stats.c 1618-1794, up to the iteration.  [None]: crash, or the loop of lines 1717-1721 does not end
    (isctx is a 32 bit number and always at most first) *)
Definition prepare (begin first last : Z) (odata : Z) (g : stats) : option stats :=
  if first =? 4294967295 then None else
  let k := g_pk g in
  let reset := (first =? 0) || (first <? b_isctx (p_fwd k)) in
  let isctx := if reset then 0 else b_isctx (p_fwd k) in
  let '(gen, endnum) := draw (Z.to_nat (first + 1 - isctx)) (if reset then O else p_gen k) (if reset then start else p_endnum k) in
  let isctx := Z.max isctx (first + 1) in
  let k := mkPk (mkBuf (b_list (p_fwd k)) (b_end (p_fwd k)) isctx) (mkBuf (b_list (p_bck k)) (b_end (p_bck k)) isctx)
             gen endnum skips 0 0 0 (p_end_time k) in
  match first_node false first last k with
  | None => None
  | Some k =>
      match first_node true first last k with
      | None => None
      | Some k =>
          Some (mkSt first last 0 k (mkRo (repeat 0 rlistlen) (repeat 0 rlistlen) (o_index (g_ro g)) (o_num (g_ro g)))
                  [] (repeat 0 256) true endnum 0 (Z.max begin odata) 0)
      end
  end.

(** the callback for OWPParseRecords; the state remembers a crash *)
Definition callback (r : datarec) (s : option stats) : Z * option stats :=
  match s with
  | None => (-1, None)
  | Some g => match iterate r g with SRet rc g => (rc, Some g) | SCrash => (-1, None) end
  end.

(** stats.c 1618-1837: OWPStatsParse for one-way sessions.  [odata], [oskip], [version]: from the
    header of the file [f]; [limit]: rec_limit.  The sort of the histogram is left to its users. *)
Inductive parsed := POk (g : stats) | PFail (g : stats) | PCrash.
Definition parse (version odata oskip limit : Z) (f : list Z) (begin first last : Z) (g : stats) : parsed :=
  let last := if last =? 4294967295 then npackets else last in
  if (last <? first) || (npackets <? last) then PFail g else
  let fileend := if odata <? oskip then oskip else Z.of_nat (length f) in
  match prepare begin first last odata g with
  | None => PCrash
  | Some g =>
      let nrecs := u32 (Z.quot (fileend - g_begin g) rec_size) in
      let nrecs := if (0 <? limit) && (limit <? nrecs) then limit else nrecs in
      match parse_records callback version (Z.to_nat (g_begin g)) (Z.to_nat nrecs) f (Some g) with
      | Some (true, Some g) =>
          match flush_all (fuel_for (g_first g) (g_last g)) false (g_first g) (g_last g) (g_pk g) with
          | None => PCrash
          | Some k =>
              match flush_all (fuel_for (g_first g) (g_last g)) true (g_first g) (g_last g) k with
              | None => PCrash
              | Some k => POk (mkSt (g_first g) (g_last g) (g_sent g) k (g_ro g) (g_hist g) (g_ttl g) (g_sync g) (g_start_time g) (g_i g) (g_begin g) (g_next g))
              end
          end
      | Some (false, Some g) => PFail g
      | Some (_, None) | None => PCrash
      end
  end.

(** stats.c 656-937: OWPStatsCreate *)
Definition create : stats :=
  mkSt 0 0 0 (mkPk (mkBuf [] None 0) (mkBuf [] None 0) 0 start skips 0 0 0 0) (mkRo (repeat 0 rlistlen) (repeat 0 rlistlen) 0 0)
    [] (repeat 0 256) false 0 0 0 0.
End Stats.

(** ** What is reported *)

(** stats.c 1587-1616: BucketBufferSortPercentile on the sorted buckets: the bucket, or [None].
    The comparison is between an integer and the double alpha*sent, here the fraction [thr]/[den]. *)
Fixpoint percentile (thr den : Z) (sum : Z) (sorted : list (Z * Z)) : option Z :=
  match sorted with
  | [] => None
  | (b, n) :: r => if (n + sum) * den <? thr then percentile thr den (sum + n) r else Some b
  end.

(** stats.c 2039-2064: CalculateTtlStats: number (8 bit), minimum, maximum *)
Fixpoint ttl_loop (i : Z) (counts : list Z) (num lo hi : Z) : Z * Z * Z :=
  match counts with
  | [] => (num, lo, hi)
  | c :: r =>
      if c =? 0 then ttl_loop (i + 1) r num lo hi
      else ttl_loop (i + 1) r (u8 (num + 1)) (if i <? lo then u8 i else lo) (if hi <? i then u8 i else hi)
  end.
Definition ttl_stats (counts : list Z) : Z * Z * Z := ttl_loop 0 counts 0 255 0.
