(** Model of the sender of two-way sessions: run_tw_test, endpoint.c 3088-3773, with flush_lost 1941-2099
    (two-way part), get_node 1742-1807 and alloc_node 1664-1717, over an arbitrary environment.
    All line numbers refer to /repo/owamp/owamp/owamp/endpoint.c.
    Simplifications: memory allocation, timers, encryption and writing to the file do not fail (but records that
    cannot be encoded are modelled); the queue from ep->begin to ep->end is a list of nodes; octets 26 to 31 of the
    requests of authenticated mode, which are what the last reply had there and are not looked at by the reflector
    nor covered by the code, are zero.  A ssize_t has 64 bits (3555 compares it with a uint32_t). *)
From Coq Require Import ZArith List Bool.
From Verif Require Import Base Arith_Model Time_Model Wire_Model Control_Model Packet_Model Receiver_Model Reflector_Model.
Import ListNotations.
Open Scope Z_scope.

(** endpoint.h (OWPLostPacketRec): sequence number, offset from start, absolute time, hit, sent *)
Record tnode := mkTN { x_seq : Z; x_rel : Z; x_abs : tspec; x_hit : bool; x_sent : bool }.

(** results of sendto: success, ENOBUFS, an error of 3430-3439, EINTR, another error *)
Inductive tsend := TSOk | TSNoBufs | TSFatal | TSIntr | TSOther.
(** what was handed to sendto: number, octets, clock reading, result *)
Record sent := mkSent { s_seq : Z; s_pkt : list Z; s_time : tspec; s_res : tsend }.

(** what recvfromttl does: fails, or reads a datagram; [known] as in Reflector_Model *)
Inductive trx := TxFail | TxData (known : bool) (data : list Z) (ttl : Z).

(** one passage from AGAIN (3347) or from RECEIVE (3456) on: owp_int or owp_usr2 is set when first tested; clock;
    nanosleep returns 0 or EINTR; flags when tested the second time; padding; result of sendto; result of
    recvfromttl, errno is EINTR after it; from which of its tests on flush_lost sees owp_usr2 *)
Record tenv := mkTE { te_stop1 : bool; te_clock : option (tspec * Z * Z); te_sleep : bool; te_stop2 : bool;
  te_pad : list Z; te_send : tsend; te_rx : trx; te_eintr : bool; te_usr2 : option nat }.

(** i; whether at RECEIVE; queue; records; owptstamp, lasterror, currtime; flush_rc (not set, 0 or positive); ghost:
    what was sent, and the packets that were not sent because it was too late, with the clock reading *)
Record tstate := mkT { t_i : Z; t_recv : bool; t_win : list tnode; t_recs : list twrec; t_ts : timestamp; t_last : Z;
  t_cur : tspec; t_rc : option bool; t_out : list sent; t_skip : list (Z * tspec) }.

(** [TEnd]: at finish_sender (3736); [TErr]: at error (3762); [TExit]: exit without touching the file *)
Inductive tout := TGo (st : tstate) | TEnd (st : tstate) | TErr (st : tstate) (recs : list twrec) | TExit (st : tstate).

Inductive tflush := TFGo (w : list tnode) (recs : list twrec) | TFOver (recs : list twrec) | TFErr (recs : list twrec).

Section Twoway.
Variable E D : list Z -> list Z -> list Z.
Variable H : list Z -> list Z -> list Z.
(** mode, keys, start time, loss timeout, number of packets, delays (as in Receiver_Model); ep->len_payload *)
Variable mode : Z.
Variable aeskey replykey hmackey : list Z.
Variable start timeout npackets : Z.
Variable delta : nat -> Z.
Variable len : nat.

(** 467, 3253: start and timeout as timespecs *)
Definition tw_start : tspec := OWPTimestampToTimespec (mkTS start 0 0 0).
Definition tw_timeout : tspec := OWPNum64ToTimespec timeout.

(** 1765-1778: the node after [n] *)
Definition tnext (n : tnode) : tnode :=
  let rel := OWPNum64Add (x_rel n) (delta (Z.to_nat (x_seq n + 1))) in
  mkTN (x_seq n + 1) rel (abs_of start rel) false false.
Fixpoint textend (k : nat) (n : tnode) : list tnode :=
  match k with O => [] | S k' => let m := tnext n in m :: textend k' m end.
Definition tlast (w : list tnode) : tnode := last w (mkTN 0 0 (0,0) false false).

(** 1742-1807: get_node *)
Definition tget (w : list tnode) (seq : Z) : option (list tnode * tnode) :=
  let e := tlast w in
  let w := if x_seq e <? seq then w ++ textend (Z.to_nat (seq - x_seq e)) e else w in
  match find (fun n => x_seq n =? seq) w with Some n => Some (w, n) | None => None end.

(** api.c 3119-3144: OWPWriteTWDataRecord: None when the record cannot be encoded *)
Definition write_tw (recs : list twrec) (r : twrec) : option (list twrec) :=
  match encode_twrec r with Some _ => Some (recs ++ [r]) | None => None end.

(** 2017-2043: the record of a lost packet *)
Definition tw_lost (n : tnode) (errest : timestamp) : twrec :=
  let none := mkTS (OWPULongToNum64 0) (sync errest) (multiplier errest) (scale errest) in
  mkTW (mkRec (x_seq n) (mkTS (OWPNum64Add start (x_rel n)) 0 1 64) none 255) (mkRec 0 none none 255).

(** 1957-1959, 2080-2082 *)
Definition tw_expect (n : tnode) : tspec := ts_add (ts_add (0, 0) (x_abs n)) tw_timeout.

(** 1977-1982, 1987-2096: the loop of flush_lost; [j]: number of tests of owp_usr2 so far *)
Fixpoint tflush_loop (fuel : nat) (j : nat) (u : option nat) (errest : timestamp) (cur : tspec)
  (w : list tnode) (recs : list twrec) : tflush :=
  match fuel with
  | O => TFErr recs
  | S fuel' =>
      match w with
      | [] => TFErr recs
      | b :: rest =>
          let exp := tw_expect b in
          let cur := if usr2_seen u j then ts_add (ts_add (0, 0) exp) tw_timeout else cur in
          if ts_lt exp cur && x_sent b then
            match (if x_hit b then Some recs else write_tw recs (tw_lost b errest)) with
            | None => TFErr recs
            | Some recs =>
                match rest with
                | _ :: _ => tflush_loop fuel' (S j) u errest cur rest recs
                | [] => if x_seq b + 1 <? npackets then tflush_loop fuel' (S j) u errest cur [tnext b] recs
                        else TFOver recs
                end
            end
          else TFGo w recs
      end
  end.
Definition tflush_lost (u : option nat) (errest : timestamp) (cur : tspec) (w : list tnode) (recs : list twrec) : tflush :=
  match w with
  | [] => TFErr recs
  | b :: _ => tflush_loop (S (Z.to_nat (npackets - x_seq b))) 0 u errest cur w recs
  end.

(** 3303-3304, 3472-3473: when a packet is to be sent *)
Definition tw_due (n : tnode) : tspec := ts_add (OWPNum64ToTimespec (x_rel n)) tw_start.

Definition set_node (seq : Z) (f : tnode -> tnode) (w : list tnode) : list tnode :=
  map (fun n => if x_seq n =? seq then f n else n) w.
Definition mark_sent (cur : tspec) (n : tnode) : tnode := mkTN (x_seq n) (x_rel n) cur (x_hit n) true.
Definition mark_skipped (n : tnode) : tnode := mkTN (x_seq n) (x_rel n) (x_abs n) true true.
Definition mark_hit (n : tnode) : tnode := mkTN (x_seq n) (x_rel n) (x_abs n) true (x_sent n).

(** 3716-3717, 3734, 3290-3302: SKIP_SEND and the beginning of the loop *)
Definition t_next (st : tstate) : tout :=
  let i := t_i st + 1 in
  let st' w := mkT i false w (t_recs st) (t_ts st) (t_last st) (t_cur st) (t_rc st) (t_out st) (t_skip st) in
  if i <? npackets then
    match tget (t_win st) i with Some (w, _) => TGo (st' w) | None => TEnd (st' (t_win st)) end
  else TEnd (st' (t_win st)).

(** 3306, 3319-3340, 3372-3418: the request *)
Definition tw_request (pad : list Z) (seq : Z) (ts : timestamp) : option (list Z) :=
  build_packet E H (if mode =? MODE_MIXED then MODE_OPEN else mode) aeskey hmackey pad seq ts.

(** 3342-3454, 3718-3733: from AGAIN to RECEIVE *)
Definition t_send (st : tstate) (e : tenv) : tout :=
  if te_stop1 e then TEnd st else
  match te_clock e, tget (t_win st) (t_i st) with
  | None, _ => TExit st
  | _, None => TEnd st
  | Some (cur, err, sy), Some (w, n) =>
      let due := tw_due n in
      if ts_gt cur due then
        if ts_gt cur (ts_add tw_timeout due) then
          t_next (mkT (t_i st) false (set_node (t_i st) mark_skipped w) (t_recs st) (t_ts st) (t_last st) cur (t_rc st) (t_out st) (t_skip st ++ [(t_i st, cur)]))
        else
          let ts := stamp (t_ts st) (t_last st) cur err sy in
          match tw_request (te_pad e) (t_i st) ts with
          | None => TExit st
          | Some pkt =>
              let ts' := match encode_errest ts with Some _ => ts | None => mkTS (owptime ts) 0 255 63 end in
              let go recv w out := mkT (t_i st) recv w (t_recs st) ts' err cur (t_rc st) out (t_skip st) in
              if te_stop2 e then TEnd (go false w (t_out st)) else
              let out := t_out st ++ [mkSent (t_i st) (firstn len pkt) cur (te_send e)] in
              match te_send e with
              | TSNoBufs => TGo (go false w out)
              | TSFatal => TExit (go false w out)
              | TSIntr => t_next (go false w out)
              | TSOk | TSOther => TGo (go true (set_node (t_i st) (mark_sent cur) w) out)
              end
          end
      else if te_sleep e then TGo (mkT (t_i st) false w (t_recs st) (t_ts st) (t_last st) cur (t_rc st) (t_out st) (t_skip st)) else TExit st
  end.

(** 3562-3605: decrypt the reply in place, and compare the code *)
Definition open_reply (buf : list Z) : option (list Z) :=
  if open_mode mode then Some buf else
  let '(p1, iv) := cbc_dec D replykey (zeros 16) 1 (sub 0 16 buf) in
  let buf := put 0 p1 buf in
  let '(buf, txt) :=
    if mode =? MODE_ENCR then
      let '(p2, _) := cbc_dec D replykey iv 5 (sub 16 80 buf) in (put 16 p2 buf, p1 ++ p2)
    else (buf, p1) in
  if eqb_octets (sub 96 16 buf) (firstn 16 (H hmackey txt)) then Some buf else None.

(** 3616, 3641-3668: the record; [None]: an invalid error estimate.  sent.recv gets the error estimate of the time
    of sending of the reply: there is no other. *)
Definition read_reply (buf : list Z) (rts : timestamp) (ttl : Z) : option twrec :=
  let o := rep_at mode in
  let t0 := mkTS 0 0 0 0 in
  let '(ss, _, ok1) := decode_errest (decode_timestamp t0 (sub (p_sts o) 8 buf)) (sub (p_serr o) 2 buf) in
  let '(sr, _, ok2) := decode_errest (decode_timestamp t0 (sub (p_rcv o) 8 buf)) (sub (p_tstamperr o) 2 buf) in
  let '(rs, _, _) := decode_errest (decode_timestamp t0 (sub (p_tstamp o) 8 buf)) (sub (p_tstamperr o) 2 buf) in
  if ok1 && ok2 then
    Some (mkTW (mkRec (be_dec (sub (p_sseq o) 4 buf)) ss sr (byte (p_sttl o) buf)) (mkRec (be_dec (sub 0 4 buf)) rs rts ttl))
  else None.

(** 3500-3502: the length a reply should have; 3508-3515: what recvfromttl returns, and the octets read *)
Definition resp_len : nat := (len + Z.to_nat (tw_payload_size mode 0 - payload_size mode 0))%nat.
Definition rx_len (r : trx) : Z :=
  match r with
  | TxFail => -1
  | TxData known data _ => let n := Z.of_nat (length (firstn resp_len data)) in if known then n else - n
  end.
Definition rx_data (r : trx) : list Z := match r with TxFail => [] | TxData _ data _ => firstn resp_len data end.
Definition rx_ttl (r : trx) : Z := match r with TxFail => 0 | TxData _ _ ttl => ttl end.

(** 3465-3488: nothing is received if the next packet is late, or to be sent within a millisecond *)
Definition t_hurry (st : tstate) : option (list tnode) :=
  if t_i st <? npackets - 1 then
    match tget (t_win st) (t_i st + 1) with
    | None => None
    | Some (w, n) =>
        let s := ts_sub (tw_due n) (t_cur st) in
        if ts_lt (tw_due n) (t_cur st) || ((fst s =? 0) && (snd s <? 1000000)) then None else Some w
    end
  else Some (t_win st).

(** 3456-3714: from RECEIVE on *)
Definition t_receive (st : tstate) (e : tenv) : tout :=
  if te_stop1 e then TEnd st else
  match t_hurry st with
  | None => t_next st
  | Some w =>
      let set w recs cur rc := mkT (t_i st) true w recs (t_ts st) (t_last st) cur rc (t_out st) (t_skip st) in
      if negb (rx_len (te_rx e) =? Z.of_nat resp_len) && negb (te_eintr e) then TEnd (set w (t_recs st) (t_cur st) (t_rc st)) else
      if te_stop2 e then TEnd (set w (t_recs st) (t_cur st) (t_rc st)) else
      match te_clock e with
      | None => TEnd (set w (t_recs st) (t_cur st) (t_rc st))
      | Some (cur, err, sy) =>
          let rts := let t := OWPTimespecToTimestamp (mkTS 0 0 0 0) cur (Some err) None in mkTS (owptime t) sy (multiplier t) (scale t) in
          match tflush_lost (te_usr2 e) rts cur w (t_recs st) with
          | TFErr recs => TErr st recs
          | TFOver recs => TEnd (set [] recs cur (Some true))
          | TFGo w recs =>
              let st := set w recs cur (Some false) in
              if rx_len (te_rx e) <? tw_payload_size mode 0 then t_next st else
              match open_reply (rx_data (te_rx e)) with
              | None => t_next st
              | Some buf =>
                  let seq := be_dec (sub (p_sseq (rep_at mode)) 4 buf) in
                  match w with
                  | [] => TEnd st
                  | b :: _ =>
                      if t_i st <? seq then TEnd st else
                      if seq <? x_seq b then TGo st else
                      match read_reply buf rts (rx_ttl (te_rx e)) with
                      | None => TEnd st
                      | Some r =>
                          match write_tw recs r with
                          | None => TEnd st
                          | Some recs =>
                              match tget w seq with
                              | None => TEnd (set w recs cur (Some false))
                              | Some (w, _) => TGo (set (set_node seq mark_hit w) recs cur (Some false))
                              end
                          end
                      end
                  end
              end
          end
      end
  end.

Definition t_pass (st : tstate) (e : tenv) : tout := if t_recv st then t_receive st e else t_send st e.
Fixpoint t_loop (st : tstate) (es : list tenv) : tout :=
  match es with
  | [] => TGo st
  | e :: r => match t_pass st e with TGo st' => t_loop st' r | o => o end
  end.

(** 3248-3281: the first node (refused by alloc_node when there is no packet: exit) *)
Definition t_init : tstate :=
  let rel := delta 0%nat in
  mkT 0 false [mkTN 0 rel (abs_of start rel) false false] [] (mkTS 0 0 0 0) 0 (0, 0) None [] [].
Definition run_tw (es : list tenv) : tout := if npackets <=? 0 then TExit t_init else t_loop t_init es.

(** 3736-3773: finish_sender; [rc0]: an uninitialised flush_rc is 0; clock; owp_usr2 during the flush; owp_int.
    Result: the records, and how the header is marked *)
Inductive tmark := MNormal | MError | MUntouched.
Definition t_finish (rc0 : bool) (cl : option (tspec * Z * Z)) (u : option nat) (int : bool) (o : tout) : list twrec * tmark :=
  match o with
  | TErr _ recs => (recs, MError)
  | TExit st | TGo st => (t_recs st, MUntouched)
  | TEnd st =>
      let last recs := (recs, if int then MError else MNormal) in
      if match t_rc st with None => rc0 | Some over => negb over end then
        match cl with
        | None => last (t_recs st)
        | Some (cur, err, sy) =>
            let rts := let t := OWPTimespecToTimestamp (mkTS 0 0 0 0) cur (Some err) None in mkTS (owptime t) sy (multiplier t) (scale t) in
            match tflush_lost u rts cur (t_win st) (t_recs st) with
            | TFErr recs => (recs, MError)
            | TFOver recs | TFGo _ recs => last recs
            end
        end
      else last (t_recs st)
  end.
End Twoway.
