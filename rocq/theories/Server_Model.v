(** Model of the server side of the control protocol: sapi.c 592-1528 (the processing of each
    request; the transfer of a session is reduced to the sequence of chunks it sends, which
    Fetch_Model.v derives from the file).
    All line numbers refer to /repo/owamp/owamp/owamp/. *)
From Coq Require Import ZArith List Bool.
From Verif Require Import Base Time_Model Sched_Model Wire_Model Control_Model Stop_Model.
Import ListNotations.
Open Scope Z_scope.

(** I2SockAddrEqual(...,I2SADDR_ADDR) > 0 of I2util (not part of the repository): same family and
    same address, port ignored *)
Definition same_addr (a b : saddr) : bool :=
  family_eqb (sa_family a) (sa_family b) && eqb_octets (sa_addr a) (sa_addr b).

(** Everything the processing of a test request depends on besides the message: memory for the
    session and the slots, I2AddrSAddr, the session id made by _OWPCreateSID (if it works), whether
    OWPScheduleContextCreate works, getnameinfo, the answer of the test policy hook with its
    severity, _OWPEndpointInit and _OWPEndpointInitHook (None: they work, otherwise accept value
    and severity), the port that was bound, and the endpoint. *)
Record trworld := mkTR {
  w_alloc : bool; w_slots : bool; w_addrs : bool; w_sid : option (list Z); w_sched : bool; w_names : bool;
  w_policy : bool * Z; w_init : option (Z * Z); w_hook : option (Z * Z); w_port : Z; w_endp : endp }.

(** A session accepted by the server: the request, its session id and the announced port *)
Record session := mkSess { se_req : request; se_sid : list Z; se_port : Z; se_send : bool }.

(** connection and the sessions it manages (cntrl->tests) *)
Record srv := mkSrv { s_c : ctl; s_tests : list tsess; s_sessions : list session }.

(** _OWPPolicy answer: 0 granted; otherwise accept value (None: unchanged) and severity *)
Definition policy_step (w : trworld) (acceptval : Z) : option (Z * Z) :=
  let (ok, err) := w_policy w in
  if ok then None else
  if err <? ErrOK then Some (acceptval, err) else Some (CNTRL_REJECT, ErrWARNING).

Section Server.
Variable E D H : list Z -> list Z -> list Z.

(** sapi.c 783-794: the error exit *)
Definition refuse (c : ctl) (acceptval err : Z) : Z * ctl :=
  if ErrWARNING <=? err then (err, snd (write_accept E H c acceptval 0 None)) else (err, c).

(** sapi.c 592-795: OWPProcessTestRequest *)
Definition process_test_request (s : srv) (w : trworld) : Z * srv :=
  let '(rc, tsession, acceptval, c) := read_test_request D H (s_c s) true (w_alloc w) (w_slots w) in
  let ret r := (fst r, mkSrv (snd r) (s_tests s) (s_sessions s)) in
  match tsession with
  | Some q =>
      if negb (w_addrs w) then ret (refuse c acceptval ErrFATAL) else
      match (if q_conf_receiver q then w_sid w else Some (q_sid q)) with
      | None => ret (refuse c CNTRL_FAILURE ErrWARNING)
      | Some sid =>
          if negb (w_sched w) then ret (refuse c CNTRL_FAILURE ErrWARNING) else
          (* conf_receiver part, 656-690 *)
          let r1 :=
            if q_conf_receiver q then
              if q_conf_sender q then Some (CNTRL_UNSUPPORTED, ErrWARNING) else
              match policy_step w acceptval with
              | Some x => Some x
              | None => w_init w
              end
            else None in
          match r1 with
          | Some (a, e) => ret (refuse c a e)
          | None =>
              (* conf_sender part, 692-754 *)
              let r2 :=
                if q_conf_sender q then
                  let open := negb (ciphers c) in
                  if open && negb (w_names w) then Some (acceptval, ErrFATAL) else
                  if open && negb (same_addr (remote c) (q_receiver q)) then Some (CNTRL_REJECT, ErrWARNING) else
                  match policy_step w acceptval with
                  | Some x => Some x
                  | None => match w_init w with Some x => Some x | None => w_hook w end
                  end
                else None in
              match r2 with
              | Some (a, e) => ret (refuse c a e)
              | None =>
                  (* 762-767 *)
                  match (if q_conf_receiver q then w_hook w else None) with
                  | Some (a, e) => ret (refuse c a e)
                  | None =>
                      let (rc, c) := write_accept E H c CNTRL_ACCEPT (w_port w) (Some sid) in
                      if rc <? ErrOK then (rc, mkSrv c (s_tests s) (s_sessions s)) else
                      (ErrOK, mkSrv c (mkTS sid (Some (w_endp w)) :: s_tests s)
                                (mkSess q sid (w_port w) (q_conf_sender q) :: s_sessions s))
                  end
              end
          end
      end
  | None => (if acceptval <? 0 then ErrFATAL else ErrWARNING, mkSrv c (s_tests s) (s_sessions s))
  end.

(** sapi.c 797-915: OWPProcessTestRequestTW *)
Definition process_test_request_tw (s : srv) (w : trworld) : Z * srv :=
  let '(rc, tsession, acceptval, c) := read_test_request D H (s_c s) true (w_alloc w) (w_slots w) in
  let ret r := (fst r, mkSrv (snd r) (s_tests s) (s_sessions s)) in
  match tsession with
  | Some q =>
      if negb (w_addrs w) then ret (refuse c acceptval ErrFATAL) else
      match w_sid w with
      | None => ret (refuse c CNTRL_FAILURE ErrWARNING)
      | Some sid =>
          match policy_step w acceptval with
          | Some (a, e) => ret (refuse c a e)
          | None =>
              match w_init w with
              | Some (a, e) => ret (refuse c a e)
              | None =>
                  match w_hook w with
                  | Some (a, e) => ret (refuse c a e)
                  | None =>
                      if w_port w =? 0 then ret (refuse c CNTRL_FAILURE ErrWARNING) else
                      let (rc, c) := write_accept E H c CNTRL_ACCEPT (w_port w) (Some sid) in
                      if rc <? ErrOK then (rc, mkSrv c (s_tests s) (s_sessions s)) else
                      (ErrOK, mkSrv c (mkTS sid (Some (w_endp w)) :: s_tests s)
                                (mkSess q sid (w_port w) false :: s_sessions s))
                  end
              end
          end
      end
  | None => ret (refuse c acceptval (if acceptval <? 0 then ErrFATAL else ErrWARNING))
  end.

(** sapi.c 917-952: OWPProcessStartSessions.  [starts]: for each session in turn, whether its
    endpoint could be signalled (_OWPEndpointStart, endpoint.c 4124-4139). *)
Definition process_start (s : srv) (starts : list bool) : Z * srv :=
  let (rc, c) := read_start D H (s_c s) in
  if rc <? ErrOK then (rc, mkSrv (invalid c) (s_tests s) (s_sessions s)) else
  if forallb (fun b => b) (firstn (length (filter (fun t => match t_end t with Some _ => true | None => false end) (s_tests s))) starts) then
    let (rc, c) := write_start_ack E H c CNTRL_ACCEPT in
    if rc <? ErrOK then (rc, mkSrv (invalid c) (s_tests s) (s_sessions s))
    else (ErrOK, mkSrv c (s_tests s) (s_sessions s))
  else
    let (_, c) := write_start_ack E H c CNTRL_FAILURE in
    (ErrFATAL, mkSrv (invalid c) (s_tests s) (s_sessions s)).

(** One step of the transfer of a session: a chunk of whole blocks that is added to the message
    code and sent; the code; or a failure to read the file. *)
Inductive out := Chunk (octets : list Z) | Seal | Broken.

Fixpoint send_outs (c : ctl) (l : list out) : bool * ctl :=
  match l with
  | [] => (true, c)
  | o :: r =>
      let res :=
        match o with
        | Chunk bs =>
            let nb := (length bs / 16)%nat in
            send_blocks E (shm_add (set_msg c (put 0 bs (msg c))) 0 nb) 0 nb
        | Seal => send_blocks E (shm_digest H c 0) 0 1
        | Broken => (IOShort, c)
        end in
      match res with
      | (IODone, c) => send_outs c r
      | (_, c) => (false, c)
      end
  end.

(** What the policy hook and the session file lead to: the hook refuses (with its severity); the
    file cannot be opened (or a complete session is asked for that is not complete); the file cannot
    be used; or the transfer ([preamble]: [None] if the file ends within it). *)
Inductive fetched :=
| FRefused (err : Z) | FReject | FFailed
| FSend (finished next_seqno nskips nrecs : Z) (preamble : option (list Z)) (body : list out).

(** sapi.c 1030-1499: OWPProcessFetchSession.  [look b e sid]: the above for the request read.
    The preamble (96 octets of the file) is sent in one call with its code. *)
Definition process_fetch (s : srv) (look : Z -> Z -> list Z -> fetched) : Z * srv :=
  let '(rc, (b, e, sid), c) := read_fetch D H (s_c s) in
  let ret r := (fst r, mkSrv (snd r) (s_tests s) (s_sessions s)) in
  let negative c a :=
    let (rc, c) := write_fetch_ack E H c a 0 0 0 0 in
    if rc <? ErrOK then (rc, invalid c) else (ErrWARNING, c) in
  if rc <? ErrOK then ret (rc, invalid c) else
  match look b e sid with
  | FRefused err => if err <? ErrOK then ret (err, invalid c) else ret (negative c CNTRL_REJECT)
  | FReject => ret (negative c CNTRL_REJECT)
  | FFailed => ret (negative c CNTRL_FAILURE)
  | FSend fin next nsk nrec pre body =>
      let (rc, c) := write_fetch_ack E H c CNTRL_ACCEPT fin next nsk nrec in
      if rc <? ErrOK then ret (rc, invalid c) else
      match pre with
      | None => ret (ErrFATAL, invalid c)
      | Some pre =>
      match send_blocks E (shm_digest H (shm_add (set_msg c (put 0 pre (msg c))) 0 6) 96) 0 7 with
      | (IODone, c) =>
          match send_outs c body with
          | (true, c) => ret (ErrOK, or_st (clr_st c StFetching) StRequest)
          | (false, c) => ret (ErrFATAL, invalid c)     (* some of these exits return OWPErrOK, all invalidate *)
          end
      | (_, c) => ret (ErrFATAL, invalid c)
      end
      end
  end.

End Server.
