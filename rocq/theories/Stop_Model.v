(** Model of the Stop-Sessions exchange: protocol.c 2025-2632 and api.c 602-863, 1757-2142.
    All line numbers refer to /repo/owamp/owamp/owamp/. *)
From Coq Require Import ZArith List Bool.
From Verif Require Import Base Time_Model Sched_Model Wire_Model Control_Model.
Import ListNotations.
Open Scope Z_scope.

(** owampP.h 330-400: OWPEndpointRec, the members the stop exchange uses: direction, contents of
    the file behind skiprecfd, the recorded skiprecsize; and, as given from outside, whether fstat
    and lseek work on that file, and the accept value and severity with which the endpoint process
    ends when it is stopped. *)
Record endp := mkEP {
  e_send : bool; e_skips : list Z; e_size : Z; e_file_ok : bool; e_exit : Z; e_sev : Z }.
(** owampP.h 405-430: OWPTestSessionRec: sid and endpoint (NULL: None) *)
Record tsess := mkTS { t_sid : list Z; t_end : option endp }.

(** endpoint.c 4187-4242: _OWPEndpointStop on an endpoint: the accept value becomes that of the
    endpoint if it was good so far (endpoint process and signals are outside the model) *)
Definition endpoint_stop (e : endp) (aval : Z) : Z * Z :=
  (e_sev e, if aval =? CNTRL_ACCEPT then e_exit e else aval).

(** api.c 648-764: _OWPStopSendSessions.  Result: severity, accept value, number of send sessions,
    sessions. *)
Fixpoint stop_send (tw : bool) (ts : list tsess) (sev aval n : Z) : Z * Z * Z * list tsess :=
  match ts with
  | [] => (sev, aval, n, [])
  | t :: r =>
      match t_end t with
      | None => (sev, CNTRL_FAILURE, n, ts)                      (* 680-685: break *)
      | Some e =>
          if negb tw && negb (e_send e)
          then let '(s, a, k, r') := stop_send tw r sev aval n in (s, a, k, t :: r')
          else
            let (err, aval) := endpoint_stop e aval in
            let sev := Z.min err sev in
            let n := (n + 1) mod M32 in
            if tw then let '(s, a, k, r') := stop_send tw r sev aval n in (s, a, k, t :: r') else
            let nskip := be_dec (sub 4 4 (e_skips e)) in
            if e_file_ok e && (8 <=? Z.of_nat (length (e_skips e))) &&
               (((nskip + 1) mod M32 * 8) mod M32 =? Z.of_nat (length (e_skips e)))
            then
              let t' := mkTS (t_sid t) (Some (mkEP (e_send e) (e_skips e) (Z.of_nat (length (e_skips e))) (e_file_ok e) (e_exit e) (e_sev e))) in
              let '(s, a, k, r') := stop_send tw r sev aval n in (s, a, k, t' :: r')
            else
              let '(s, a, k, r') := stop_send tw r (Z.min ErrWARNING sev) CNTRL_FAILURE n in (s, a, k, t :: r')
      end
  end.

Section Stop.
Variable E D H : list Z -> list Z -> list Z.

(** io.c 27-47 on a one-block buffer outside cntrl->msg (sptr->sid); encrypts in place.
    Result: outcome, new contents of the buffer. *)
Definition send_sid (c : ctl) (sid : list Z) : ioret * list Z * ctl :=
  if ciphers c then
    let (ct, iv) := cbc_enc E (key c) (wiv c) 1 sid in
    let (r, c) := write_raw (set_wiv c iv) ct in (r, ct, c)
  else let (r, c) := write_raw c sid in (r, sid, c).

(** protocol.c 2098-2107: the complete blocks of the skip file *)
Fixpoint write_skip_blocks (c : ctl) (n : nat) (file : list Z) : option (list Z) * ctl :=
  match n with
  | O => (Some file, c)
  | S k =>
      if (length file <? 16)%nat then (None, invalid c) else
      let c := shm_add (set_msg c (put 0 (firstn 16 file) (msg c))) 0 1 in
      match send_blocks E c 0 1 with
      | (IODone, c) => write_skip_blocks c k (skipn 16 file)
      | (_, c) => (None, invalid c)
      end
  end.

(** protocol.c 2093-2131: the skip file of one session *)
Definition write_skips (c : ctl) (size : Z) (file : list Z) : bool * ctl :=
  if size <? 0 then (false, invalid c) else
  match write_skip_blocks c (Z.to_nat (size / 16)) file with
  | (None, c) => (false, c)
  | (Some rest, c) =>
      if size mod 16 =? 8 then
        if (length rest <? 8)%nat then (false, invalid c) else
        let c := shm_add (set_msg c (put 8 (zeros 8) (put 0 (firstn 8 rest) (msg c)))) 0 1 in
        match send_blocks E c 0 1 with
        | (IODone, c) => (true, c)
        | (_, c) => (false, invalid c)
        end
      else if size mod 16 =? 0 then (true, c) else (false, invalid c)
  end.

(** protocol.c 2070-2132: the loop over the sessions *)
Fixpoint write_stop_sessions (c : ctl) (ts : list tsess) : bool * list tsess * ctl :=
  match ts with
  | [] => (true, [], c)
  | t :: r =>
      match t_end t with
      | None => let '(b, r', c) := write_stop_sessions c r in (b, t :: r', c)      (* 2076-2080 *)
      | Some e =>
          if negb (e_send e) then let '(b, r', c) := write_stop_sessions c r in (b, t :: r', c) else
          let c := if ciphers c then set_shm c (shm c ++ t_sid t) else c in
          match send_sid c (t_sid t) with
          | (IODone, sid', c) =>
              let t' := mkTS sid' (t_end t) in
              match write_skips c (e_size e) (e_skips e) with
              | (true, c) => let '(b, r', c) := write_stop_sessions c r in (b, t' :: r', c)
              | (false, c) => (false, t' :: r, c)
              end
          | (_, sid', c) => (false, mkTS sid' (t_end t) :: r, invalid c)
          end
      end
  end.

(** protocol.c 2025-2146: _OWPWriteStopSessions; also returns the session list, whose sids are
    overwritten by their ciphertext. *)
Definition write_stop (c : ctl) (acceptval num : Z) (ts : list tsess) : Z * list tsess * ctl :=
  if negb (is_st StRequest c && is_st StTest c) then (ErrFATAL, ts, c) else
  let m := put 4 (be_enc 4 num) (put 0 [3; Z.land acceptval 255] (put 0 (zeros 16) (msg c))) in
  let c := shm_add (set_msg c m) 0 1 in
  if twoway c then
    match send_blocks E (shm_digest H c 16) 0 2 with
    | (IODone, c) => (ErrOK, ts, c)
    | (_, c) => (ErrFATAL, ts, invalid c)
    end
  else
    match send_blocks E c 0 1 with
    | (IODone, c) =>
        match write_stop_sessions c ts with
        | (true, ts, c) =>
            match send_blocks E (shm_digest H c 0) 0 1 with
            | (IODone, c) => (ErrOK, ts, c)
            | (_, c) => (ErrFATAL, ts, invalid c)
            end
        | (false, ts, c) => (ErrFATAL, ts, c)
        end
    | (_, c) => (ErrFATAL, ts, invalid c)
    end.

(** protocol.c 2330-2357: receivers are pulled out of the list (in reverse order); None: a session
    without endpoint is met (the sessions pulled so far are then put back, 2622-2629) *)
Fixpoint pull_receivers (ts recv : list tsess) : option (list tsess) * list tsess :=
  match ts with
  | [] => (Some [], recv)
  | t :: r =>
      match t_end t with
      | None => (None, recv)
      | Some e =>
          if e_send e
          then let (k, rv) := pull_receivers r recv in
               (match k with Some k => Some (t :: k) | None => None end, rv)
          else pull_receivers r (t :: recv)
      end
  end.

(** protocol.c 2386-2411: look a sid up in the receivers list: the session, the list without it,
    and the part of the list behind it ([sptr] is left pointing there) *)
Fixpoint find_receiver (sid : list Z) (rv : list tsess) : option (tsess * list tsess * list tsess) :=
  match rv with
  | [] => None
  | t :: r =>
      if eqb_octets sid (t_sid t) then Some (t, r, r)
      else match find_receiver sid r with
           | Some (x, l, behind) => Some (x, t :: l, behind)
           | None => None
           end
  end.

(** protocol.c 2475-2543: the loop over the skip records.  [odd]: the next record is at offset 8 of
    the current block.  [prev]: prev_skip.end, which the loop tests but never assigns.  Result: the
    octets written to the file, and whether the loop came to its end. *)
Fixpoint read_skips (c : ctl) (n : nat) (odd : bool) (prev : Z) : bool * list Z * ctl :=
  match n with
  | O => (true, [], c)
  | S k =>
      let '(r, c) := if odd then (IODone, c) else
                     match recv_blocks D c 0 1 with
                     | (IODone, c) => (IODone, rhm_add c 0 1)
                     | r => r
                     end in
      match r with
      | IODone =>
          let rec := sub (if odd then 8%nat else 0%nat) 8 (msg c) in
          let b := be_dec (sub 0 4 rec) in let e := be_dec (sub 4 4 rec) in
          if e <? b then (false, [], c) else
          if negb (prev =? 0) && (b <? prev) then (false, [], c) else
          let '(ok, w, c) := read_skips c k (negb odd) prev in (ok, rec ++ w, c)
      | _ => (false, [], c)
      end
  end.

(** What happened to the file of one session: sid, next_seqno, octets appended as skip records,
    and the number of skip records announced, the latter only if the session was completed
    (number of skip records and "finished" written). *)
Record stored := mkStored { s_sid : list Z; s_next : Z; s_skips : list Z; s_done : option Z }.

(** What the file system answers: [clean sid next] - locking, _OWPCleanDataRecs, reading the header and
    seeking to the end of the data work; [save sid] - all writes work. *)
Variable clean : list Z -> Z -> bool.
Variable save : list Z -> bool.

(** protocol.c 2359-2583: the loop over the session descriptions.  [behind]: what [*sptr] will be.
    Result: came to its end; tests; receivers; [*sptr]; the files; connection. *)
Fixpoint read_stop_sessions (c : ctl) (n : nat) (tests recv behind : list tsess) : bool * list tsess * list tsess * list tsess * list stored * ctl :=
  match n with
  | O => (true, tests, recv, behind, [], c)
  | S k =>
      match recv_blocks D c 0 1 with
      | (IODone, c) =>
          let c := rhm_add c 0 1 in
          match find_receiver (sub 0 16 (msg c)) recv with
          | None => (false, tests, recv, behind, [], c)
          | Some (t, recv, behind) =>
              let tests := t :: tests in
              match recv_blocks D c 0 1 with
              | (IODone, c) =>
                  let c := rhm_add c 0 1 in
                  let next := be_dec (sub 0 4 (msg c)) in
                  let nskips := be_dec (sub 4 4 (msg c)) in
                  if negb (clean (t_sid t) next) then (false, tests, recv, behind, [], c) else
                  let '(ok, w, c) := read_skips c (Z.to_nat nskips) true 0 in
                  let partial := mkStored (t_sid t) next w None in
                  if negb ok then (false, tests, recv, behind, [partial], c) else
                  if (nskips mod 2 =? 0) && negb (eqb_octets (sub 8 8 (msg c)) (zeros 8))
                  then (false, tests, recv, behind, [partial], c) else
                  if negb (save (t_sid t)) then (false, tests, recv, behind, [partial], c) else
                  let '(b, ts, rv, bh, fs, c) := read_stop_sessions c k tests recv behind in
                  (b, ts, rv, bh, mkStored (t_sid t) next w (Some nskips) :: fs, c)
              | (_, c) => (false, tests, recv, behind, [], c)
              end
          end
      | (_, c) => (false, tests, recv, behind, [], c)
      end
  end.

(** protocol.c 2272-2632: _OWPReadStopSessions.  Result: severity, accept value, sessions, what was
    stored in the session files, connection. *)
Definition read_stop (c : ctl) (tests : list tsess) : Z * Z * list tsess * list stored * ctl :=
  if negb (is_st StRequest c && is_st StTest c) then (ErrFATAL, CNTRL_ACCEPT, tests, [], c) else
  let aval := get_accept (byte 1 (msg c)) in
  if aval =? CNTRL_INVALID then (ErrFATAL, CNTRL_FAILURE, tests, [], invalid c) else
  let num := be_dec (sub 4 4 (msg c)) in
  let c := rhm_add c 0 1 in
  let fin tests files c :=
    match recv_blocks D c 0 1 with
    | (IODone, c) =>
        let (ok, c) := rhm_check H c 0 in
        if ok then (ErrOK, aval, tests, files, or_st (clr_st c StStopSessions) StRequest)
        else (ErrFATAL, CNTRL_FAILURE, tests, files, invalid c)
    | (_, c) => (ErrFATAL, CNTRL_FAILURE, tests, files, invalid c)
    end in
  if twoway c then
    if negb (num =? Z.of_nat (length tests)) then (ErrFATAL, CNTRL_FAILURE, tests, [], invalid c)
    else fin tests [] c
  else
    match pull_receivers tests [] with
    | (None, _) => (ErrFATAL, CNTRL_FAILURE, tests, [], invalid c)
    | (Some senders, recv) =>
        let '(ok, tests, recv, behind, files, c) := read_stop_sessions c (Z.to_nat num) senders recv [] in
        if negb ok then (ErrFATAL, CNTRL_FAILURE, rev recv ++ tests, files, invalid c) else
        match behind with
        | _ :: _ => (ErrFATAL, CNTRL_FAILURE, rev recv ++ tests, files, invalid c)
        | [] =>
            let '(rc, a, ts, fs, c) := fin tests files c in
            (rc, a, if rc =? ErrOK then ts else rev recv ++ ts, fs, c)
        end
    end.

(** What the rest of the world answers during a stop: severity of _OWPStopRecvSessions and the
    accept value it leaves, result of _OWPCleanUpSessions, and the lowest severity among the
    session clean-ups (_OWPTestSessionFree). *)
Record stopworld := mkSW { sw_recv : Z; sw_aval : Z; sw_clean : bool; sw_free : Z }.

(** api.c 1850-1876: the end of OWPStopSessions (label done) *)
Definition stop_finish (w : stopworld) (err aval : Z) (readstop : bool) (files : list stored) (c : ctl) : Z * Z * list stored * ctl :=
  let err := Z.min err (sw_free w) in
  if err <? ErrWARNING then (err, if aval =? CNTRL_ACCEPT then CNTRL_FAILURE else aval, files, invalid c) else
  if negb readstop then (ErrFATAL, aval, files, invalid c) else
  (err, aval, files, clr_st c StTest).

(** api.c 1757-1877: OWPStopSessions.  [server]: cntrl->server. *)
Definition stop_sessions (c : ctl) (server : bool) (aval : Z) (tests : list tsess) (w : stopworld) : Z * Z * list stored * ctl :=
  let finish := stop_finish w in
  let cleanup (err aval : Z) (readstop : bool) (tests : list tsess) (c : ctl) :=
    let err := Z.min (sw_recv w) err in
    let aval := if aval =? CNTRL_ACCEPT then sw_aval w else aval in
    if err <? ErrWARNING then finish err aval readstop [] c else
    if readstop then
      let '(e, a, _, files, c) := read_stop c tests in finish (Z.min e err) a true files c
    else finish (if sw_clean w then err else ErrFATAL) aval false [] c in
  let '(err, aval, num, tests) := stop_send (twoway c) tests ErrOK aval 0 in
  if err <? ErrWARNING then finish err aval true [] c else
  let '(e, tests, c) := write_stop c aval num tests in
  let err := Z.min e err in
  if err <? ErrWARNING then cleanup err aval false tests c else
  if twoway c && negb server then cleanup err aval false tests c else
  let (t, c) := read_request_type D c in
  if t =? 3 then cleanup err aval true tests c else
  if (t =? ReqSockClose) || (t =? ReqSockIntr) then cleanup err aval false tests c else
  finish ErrFATAL aval true [] c.

(** api.c 2098-2142: the end of OWPStopSessionsWait (label done) *)
Definition wait_finish (server : bool) (w : stopworld) (err aval num : Z) (readstop : bool) (tests : list tsess) (files : list stored) (c : ctl)
  : Z * Z * Z * list stored * ctl :=
  let aval := if err <? ErrWARNING then CNTRL_FAILURE else aval in
  let '(err, c) :=
    if readstop && (ErrWARNING <=? err) && negb (twoway c && server)
    then let '(e, _, c) := write_stop c aval num tests in (Z.min err e, c) else (err, c) in
  let err := Z.min err (sw_free w) in
  if err <? ErrWARNING then (-1, CNTRL_FAILURE, err, files, invalid c) else
  if negb readstop then (-1, aval, err, files, invalid c) else
  (0, aval, err, files, clr_st c StTest).

(** api.c 2047-2142: OWPStopSessionsWait from the moment the socket is readable *)
Definition stop_wait (c : ctl) (server : bool) (tests : list tsess) (w : stopworld) : Z * Z * Z * list stored * ctl :=
  let done := wait_finish server w in
  let readstop0 := negb (twoway c && negb server) in
  let (t, c) := read_request_type D c in
  if (t =? 3) && twoway c && negb server then done ErrFATAL CNTRL_ACCEPT 0 readstop0 tests [] c else
  if (t =? 3) || (t =? ReqSockClose) || (t =? ReqSockIntr) then
    let readstop := readstop0 && (t =? 3) in
    let '(err, aval, num, tests) := stop_send (twoway c) tests ErrOK CNTRL_ACCEPT 0 in
    if err <? ErrWARNING then done err aval num readstop tests [] c else
    let err := Z.min err (sw_recv w) in
    let aval := if aval =? CNTRL_ACCEPT then sw_aval w else aval in
    if err <? ErrWARNING then done err aval num readstop tests [] c else
    if readstop then
      let '(e, a, tests, files, c) := read_stop c tests in done (Z.min err e) a num true tests files c
    else done (if sw_clean w then err else ErrFATAL) aval num false tests [] c
  else done ErrFATAL CNTRL_ACCEPT 0 readstop0 tests [] c.

End Stop.
