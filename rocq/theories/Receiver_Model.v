(** Model of run_receiver, endpoint.c 2101-2575, flush_lost 1941-2099 (one-way part), get_node
    1742-1807 and alloc_node 1664-1717, over an arbitrary environment.  All line numbers refer to
    /repo/owamp/owamp/owamp/.
    Simplifications: memory allocation and writing to the file do not fail (a failing write leads to the same
    exit as an error estimate that cannot be encoded, which is modelled); the queue of packets from ep->begin to
    ep->end, whose nodes are linked and also stored in a hash table by sequence number, is a list of nodes and
    looking up a node searches the list. *)
From Coq Require Import ZArith List Bool.
From Verif Require Import Base Arith_Model Time_Model Wire_Model Control_Model Packet_Model.
Import ListNotations.
Open Scope Z_scope.

(** endpoint.h (OWPLostPacketRec): sequence number, offset from start, absolute time, hit *)
Record node := mkNode { n_seq : Z; n_rel : Z; n_abs : tspec; n_hit : bool }.

(** what recvfromttl did: interrupted by a signal or the timer (errno EINTR); returned another number of
    octets than the packet length (or failed), [stale]: errno is (still) EINTR; or delivered a datagram of the
    right length, [peer]: its source is the configured sender (I2SockAddrEqual) *)
Inductive rx := RxIntr | RxWrong (stale : bool) | RxData (peer : bool) (pay : list Z) (ttl : Z).
(** one test of the flags: neither, owp_int, owp_usr2 (owp_int is tested first) *)
Inductive chk := CNone | CInt | CUsr2.
(** one passage through the main loop: flags before receiving, result of receiving, flags, clock (time, error,
    sync), flags, from which of its tests on flush_lost sees owp_usr2, flags after flush_lost *)
Record renv := mkRE { re_chk1 : chk; re_rx : rx; re_chk2 : chk; re_clock : option (tspec * Z * Z);
  re_chk3 : chk; re_usr2 : option nat; re_chk4 : chk }.

(** queue, records written, datarec.recv, lasterror, currtime *)
Record rstate := mkRS { r_win : list node; r_recs : list datarec; r_stamp : timestamp; r_lasterr : Z; r_cur : tspec }.

Inductive rstep := RGo (st : rstate) | ROver (st : rstate) | RErr (recs : list datarec).

Section Receiver.
Variable D : list Z -> list Z -> list Z.
Variable H : list Z -> list Z -> list Z.
(** mode, keys, start time, loss timeout, number of packets, delay before each packet (the context generates
    them in order, and so do the nodes ask for them), the fudge time of 2258-2262 *)
Variable mode : Z.
Variable aeskey hmackey : list Z.
Variable start timeout npackets : Z.
Variable delta : nat -> Z.
Variable fudge : tspec.

(** endpoint.c 2267 *)
Definition lostspec : tspec := OWPNum64ToTimespec timeout.

(** endpoint.c 1772-1777, 2246-2250: absolute time of an offset *)
Definition abs_of (rel : Z) : tspec := OWPTimestampToTimespec (mkTS (OWPNum64Add rel start) 0 0 0).

(** endpoint.c 1765-1778: the node after [n] *)
Definition next_node (n : node) : node :=
  let rel := OWPNum64Add (n_rel n) (delta (Z.to_nat (n_seq n + 1))) in
  mkNode (n_seq n + 1) rel (abs_of rel) false.

(** endpoint.c 1762-1781: build the list from the end to a number [k] later *)
Fixpoint extend (k : nat) (n : node) : list node :=
  match k with O => [] | S k' => let m := next_node n in m :: extend k' m end.

Definition last_node (w : list node) : node := last w (mkNode 0 0 (0,0) false).

(** endpoint.c 1742-1807: get_node; the (possibly extended) queue and the node.  [None]: NULL.
    alloc_node (1672-1677) refuses numbers from npackets on (the result would be dereferenced, but no caller
    asks for one). *)
Definition get_node (w : list node) (seq : Z) : option (list node * node) :=
  let e := last_node w in
  let w := if n_seq e <? seq then w ++ extend (Z.to_nat (seq - n_seq e)) e else w in
  match find (fun n => n_seq n =? seq) w with Some n => Some (w, n) | None => None end.

(** sapi/api.c OWPWriteDataRecord: None when the record cannot be encoded *)
Definition write_rec (recs : list datarec) (r : datarec) : option (list datarec) :=
  match encode_datarec r with Some _ => Some (recs ++ [r]) | None => None end.

(** endpoint.c 2000-2019: the record of a lost packet *)
Definition lost_rec (n : node) (errest : timestamp) : datarec :=
  mkRec (n_seq n) (mkTS (OWPNum64Add start (n_rel n)) 0 1 64)
    (mkTS (OWPULongToNum64 0) (sync errest) (multiplier errest) (scale errest)) 255.

Inductive flush := FGo (w : list node) (recs : list datarec) | FOver (recs : list datarec) | FErr (recs : list datarec).

(** endpoint.c 1957-1959, 2080-2082: when the first packet is declared lost *)
Definition expect_of (n : node) : tspec := ts_add (ts_add (0, 0) (n_abs n)) lostspec.
Definition usr2_seen (u : option nat) (j : nat) : bool :=
  match u with Some k => Nat.leb k j | None => false end.

(** endpoint.c 1977-1982, 1987-2096: the loop; [j]: number of tests of owp_usr2 so far.  [fuel]: one more than
    the number of packets suffices. *)
Fixpoint flush_loop (fuel : nat) (j : nat) (u : option nat) (errest : timestamp) (cur : tspec)
  (w : list node) (recs : list datarec) : flush :=
  match fuel with
  | O => FErr recs
  | S fuel' =>
      match w with
      | [] => FErr recs
      | b :: rest =>
          let exp := expect_of b in
          let cur := if usr2_seen u j then ts_add (ts_add (0, 0) exp) lostspec else cur in
          if ts_lt exp cur then
            match (if n_hit b then Some recs else write_rec recs (lost_rec b errest)) with
            | None => FErr recs
            | Some recs =>
                match rest with
                | _ :: _ => flush_loop fuel' (S j) u errest cur rest recs
                | [] => if n_seq b + 1 <? npackets then flush_loop fuel' (S j) u errest cur [next_node b] recs
                        else FOver recs
                end
            end
          else FGo w recs
      end
  end.
Definition flush_lost (u : option nat) (errest : timestamp) (cur : tspec) (w : list node) (recs : list datarec) : flush :=
  match w with
  | [] => FErr recs
  | b :: _ => flush_loop (S (Z.to_nat (npackets - n_seq b))) 0 u errest cur w recs
  end.

(** endpoint.c 2338-2341, 2357-2360: time stamp of a clock reading *)
Definition stamp (t : timestamp) (lasterr : Z) (cur : tspec) (err sy : Z) : timestamp :=
  let ts := OWPTimespecToTimestamp t cur (Some err) (Some lasterr) in
  mkTS (owptime ts) sy (multiplier ts) (scale ts).

Definition set_hit (seq : Z) (w : list node) : list node :=
  map (fun n => if n_seq n =? seq then mkNode (n_seq n) (n_rel n) (n_abs n) true else n) w.

(** endpoint.c 2289-2297, 2309: setitimer fails for a negative time *)
Definition wake (st : rstate) : tspec :=
  ts_sub (ts_add (ts_add (ts_add (0, 0) (n_abs (last_node (r_win st)))) lostspec) fudge) (r_cur st).

(** endpoint.c 2443-2538: a datagram of the right length from the sender *)
Definition r_packet (st : rstate) (pay : list Z) (ttl : Z) : rstep :=
  match parse_packet D H mode aeskey hmackey pay with
  | PBadHmac => RGo st
  | PPacket seq send valid =>
      if npackets <=? seq then RErr (r_recs st) else
      match r_win st with
      | [] => RErr (r_recs st)
      | b :: _ =>
          if seq <? n_seq b then RGo st else
          match get_node (r_win st) seq with
          | None => RErr (r_recs st)
          | Some (w, n) =>
              let st := mkRS w (r_recs st) (r_stamp st) (r_lasterr st) (r_cur st) in
              let expect := owptime (OWPTimespecToTimestamp (mkTS 0 0 0 0) (n_abs n) None None) in
              if negb valid then RErr (r_recs st) else
              if timeout <? OWPNum64Diff (owptime send) (owptime (r_stamp st)) then RGo st else
              if timeout <? OWPNum64Diff (owptime send) expect then RGo st else
              match write_rec (r_recs st) (mkRec seq send (r_stamp st) ttl) with
              | None => RErr (r_recs st)
              | Some recs => RGo (mkRS (set_hit seq w) recs (r_stamp st) (r_lasterr st) (r_cur st))
              end
          end
      end
  end.

Definition checked (c : chk) (st : rstate) (go : rstep) : rstep :=
  match c with CInt => RErr (r_recs st) | CUsr2 => ROver st | CNone => go end.

(** endpoint.c 2344-2381 (2264-2276 before the loop): stamp the clock reading, flush *)
Definition r_clock (st : rstate) (cl : option (tspec * Z * Z)) (c3 : chk) (u : option nat) (go : rstate -> rstep) : rstep :=
  match cl with
  | None => RErr (r_recs st)
  | Some (cur, err, sy) =>
      checked c3 st
        (let t := stamp (r_stamp st) (r_lasterr st) cur err sy in
         match flush_lost u t cur (r_win st) (r_recs st) with
         | FErr recs => RErr recs
         | FOver recs => ROver (mkRS [] recs t err cur)
         | FGo w recs => go (mkRS w recs t err cur)
         end)
  end.

(** endpoint.c 2278-2540: one passage through the main loop *)
Definition r_pass (st : rstate) (e : renv) : rstep :=
  if fst (wake st) <? 0 then RErr (r_recs st) else
  checked (re_chk1 e) st
    (match re_rx e with
     | RxWrong false => RErr (r_recs st)
     | _ =>
         checked (re_chk2 e) st
           (r_clock st (re_clock e) (re_chk3 e) (re_usr2 e)
              (fun st => checked (re_chk4 e) st
                 (match re_rx e with
                  | RxData true pay ttl => r_packet st pay ttl
                  | _ => RGo st
                  end)))
     end).

Fixpoint r_loop (st : rstate) (es : list renv) : rstep :=
  match es with
  | [] => RGo st
  | e :: r => match r_pass st e with RGo st' => r_loop st' r | o => o end
  end.

(** endpoint.c 2239-2276: first node (refused by alloc_node when there is no packet), first clock reading *)
Definition r_start (cl : option (tspec * Z * Z)) (u : option nat) : rstep :=
  if npackets <=? 0 then RErr [] else
  let rel := delta 0%nat in
  r_clock (mkRS [mkNode 0 rel (abs_of rel) false] [] (mkTS 0 0 0 0) 0 (0, 0)) cl CNone u RGo.

(** endpoint.c 2101-2575: run_receiver: [ROver]: the header is marked incomplete and the process
    ends with OWP_CNTRL_ACCEPT; [RErr]: the header is marked as error and the file removed if it belongs to the
    user (2557-2574) *)
Definition run_receiver (cl : option (tspec * Z * Z)) (u : option nat) (es : list renv) : rstep :=
  match r_start cl u with RGo st => r_loop st es | o => o end.
End Receiver.
