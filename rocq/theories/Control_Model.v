(** Model of the control connection: block I/O with CBC encryption and message authentication
    (io.c), and the control messages of protocol.c, function by function.
    All line numbers refer to /repo/owamp/owamp/owamp/. *)
From Coq Require Import ZArith List Bool.
From Verif Require Import Base Time_Model Sched_Model Wire_Model.
Import ListNotations.
Open Scope Z_scope.

(** owampP.h 136-159: bits of cntrl->state *)
Definition StInvalid := 0.            Definition StSetup := 1.
Definition StRequest := 4.            Definition StTest := 8.
Definition StTestRequest := 16.       Definition StTestRequestSlots := 32.
Definition StStartSessions := 64.     Definition StStopSessions := 128.
Definition StFetchSession := 256.     Definition StTestRequestTW := 512.
Definition StAcceptSession := 1024.   Definition StStartAck := 2048.
Definition StFetchAck := 4096.        Definition StFetching := 8192.
(** owampP.h 162: _OWPStateReading = TestRequest|StartSessions|StopSessions|FetchSession;
    167: _OWPStatePending = AcceptSession|StartAck|StopSessions|FetchAck *)
Definition StReading := 464.          Definition StPending := 7296.

(** owamp.h: OWPErrSeverity, OWPAcceptType, modes, OWPRequestType *)
Definition ErrFATAL := 3.  Definition ErrWARNING := 4.  Definition ErrOK := 8.
Definition CNTRL_INVALID := -1.  Definition CNTRL_ACCEPT := 0.  Definition CNTRL_REJECT := 1.
Definition CNTRL_FAILURE := 2.   Definition CNTRL_UNSUPPORTED := 3.
Definition MODE_OPEN := 1. Definition MODE_AUTH := 2. Definition MODE_ENCR := 4. Definition MODE_MIXED := 8.
Definition DOCIPHER_CNTRL := 14.
Definition ReqInvalid := -1. Definition ReqSockClose := 10. Definition ReqSockIntr := 11.

(** Outcome of one I2Readni/I2Writeni call: all octets available are moved, or the call fails
    after [n] octets, with or without "interrupted and asked to return" (errno == EINTR && *intr). *)
Inductive iores := IOok | IOfail (intr : bool) (n : nat).

(** owampP.h 212-284: OWPControlRec, the members the protocol code uses.  The socket is the pair
    of octet streams [inp] (not yet read; its end is the peer's close) and [outp] (written), and
    [io] lists the outcome of the coming I/O calls (no entry: the call works).  An HMAC context
    that has been initialised with [hkey] is represented by the text appended so far.
    [key] stands for the pair of AES key schedules made from it (io.c 156-166). *)
Record ctl := mkC {
  st : Z; mode : Z; twoway : bool; msg : list Z;
  key : list Z; hkey : list Z; riv : list Z; wiv : list Z;
  shm : list Z; rhm : list Z;
  inp : list Z; outp : list Z; io : list iores;
  remote : saddr; local : saddr }.

Definition set_st (c : ctl) (x : Z) : ctl := mkC x (mode c) (twoway c) (msg c) (key c) (hkey c) (riv c) (wiv c) (shm c) (rhm c) (inp c) (outp c) (io c) (remote c) (local c).
Definition set_mode (c : ctl) (x : Z) : ctl := mkC (st c) x (twoway c) (msg c) (key c) (hkey c) (riv c) (wiv c) (shm c) (rhm c) (inp c) (outp c) (io c) (remote c) (local c).
Definition set_msg (c : ctl) (x : list Z) : ctl := mkC (st c) (mode c) (twoway c) x (key c) (hkey c) (riv c) (wiv c) (shm c) (rhm c) (inp c) (outp c) (io c) (remote c) (local c).
Definition set_key (c : ctl) (x : list Z) : ctl := mkC (st c) (mode c) (twoway c) (msg c) x (hkey c) (riv c) (wiv c) (shm c) (rhm c) (inp c) (outp c) (io c) (remote c) (local c).
(** I2HMACSha1Init of both contexts with a new key *)
Definition set_hkey (c : ctl) (x : list Z) : ctl := mkC (st c) (mode c) (twoway c) (msg c) (key c) x (riv c) (wiv c) [] [] (inp c) (outp c) (io c) (remote c) (local c).
Definition set_riv (c : ctl) (x : list Z) : ctl := mkC (st c) (mode c) (twoway c) (msg c) (key c) (hkey c) x (wiv c) (shm c) (rhm c) (inp c) (outp c) (io c) (remote c) (local c).
Definition set_wiv (c : ctl) (x : list Z) : ctl := mkC (st c) (mode c) (twoway c) (msg c) (key c) (hkey c) (riv c) x (shm c) (rhm c) (inp c) (outp c) (io c) (remote c) (local c).
Definition set_shm (c : ctl) (x : list Z) : ctl := mkC (st c) (mode c) (twoway c) (msg c) (key c) (hkey c) (riv c) (wiv c) x (rhm c) (inp c) (outp c) (io c) (remote c) (local c).
Definition set_rhm (c : ctl) (x : list Z) : ctl := mkC (st c) (mode c) (twoway c) (msg c) (key c) (hkey c) (riv c) (wiv c) (shm c) x (inp c) (outp c) (io c) (remote c) (local c).
Definition set_inp (c : ctl) (x : list Z) (i : list iores) : ctl := mkC (st c) (mode c) (twoway c) (msg c) (key c) (hkey c) (riv c) (wiv c) (shm c) (rhm c) x (outp c) i (remote c) (local c).
Definition set_outp (c : ctl) (x : list Z) (i : list iores) : ctl := mkC (st c) (mode c) (twoway c) (msg c) (key c) (hkey c) (riv c) (wiv c) (shm c) (rhm c) (inp c) x i (remote c) (local c).

(** owampP.h 172: _OWPStateIs(bits,cntrl) *)
Definition is_st (bits : Z) (c : ctl) : bool := negb (Z.land bits (st c) =? 0).
(** cntrl->state |= bits;  cntrl->state &= ~bits *)
Definition or_st (c : ctl) (bits : Z) : ctl := set_st c (Z.lor (st c) bits).
Definition clr_st (c : ctl) (bits : Z) : ctl := set_st c (Z.ldiff (st c) bits).
Definition invalid (c : ctl) : ctl := set_st c StInvalid.

(** mode & OWP_MODE_DOCIPHER_CNTRL *)
Definition ciphers (c : ctl) : bool := negb (Z.land (mode c) DOCIPHER_CNTRL =? 0).

Fixpoint xor_octets (a b : list Z) : list Z :=
  match a, b with
  | x :: a', y :: b' => Z.lxor x y :: xor_octets a' b'
  | _, _ => []
  end.

Section Crypto.
(** AES-128 on one 16-octet block under a 16-octet key, its inverse, and HMAC-SHA1 of a text under a
    32-octet key: external primitives, arbitrary functions here. *)
Variable E D : list Z -> list Z -> list Z.
Variable H : list Z -> list Z -> list Z.

(** rijndael-api-fst.c 138-175: blockEncrypt of [nb] blocks in CBC mode; result: ciphertext and
    the updated binIV. *)
Fixpoint cbc_enc (k iv : list Z) (nb : nat) (l : list Z) : list Z * list Z :=
  match nb with
  | O => ([], iv)
  | S n =>
      let ct := E k (xor_octets (firstn 16 l) iv) in
      let (r, iv') := cbc_enc k ct n (skipn 16 l) in (ct ++ r, iv')
  end.

(** rijndael-api-fst.c 183-220: blockDecrypt *)
Fixpoint cbc_dec (k iv : list Z) (nb : nat) (l : list Z) : list Z * list Z :=
  match nb with
  | O => ([], iv)
  | S n =>
      let p := xor_octets (D k (firstn 16 l)) iv in
      let (r, iv') := cbc_dec k (firstn 16 l) n (skipn 16 l) in (p ++ r, iv')
  end.

Inductive ioret := IODone | IOShort | IOFailed (intr : bool).

(** I2Writeni(cntrl->sockfd,buf,n,intr): all octets, or failure after some of them *)
Definition write_raw (c : ctl) (bs : list Z) : ioret * ctl :=
  match io c with
  | IOfail intr n :: r => (IOFailed intr, set_outp c (outp c ++ firstn n bs) r)
  | IOok :: r => (IODone, set_outp c (outp c ++ bs) r)
  | [] => (IODone, set_outp c (outp c ++ bs) [])
  end.

(** I2Readni(cntrl->sockfd,&buf[off],n,intr): fills the buffer; a short count means that the peer
    has closed. *)
Definition read_raw (c : ctl) (off n : nat) : ioret * ctl :=
  match io c with
  | IOfail intr k :: r =>
      (IOFailed intr, set_msg (set_inp c (skipn (Nat.min k n) (inp c)) r) (put off (firstn (Nat.min k n) (inp c)) (msg c)))
  | r =>
      (if (length (inp c) <? n)%nat then IOShort else IODone,
       set_msg (set_inp c (skipn n (inp c)) (tl r)) (put off (firstn n (inp c)) (msg c)))
  end.

(** io.c 27-47: _OWPSendBlocksIntr on &buf[off]; encrypts in place *)
Definition send_blocks (c : ctl) (off nb : nat) : ioret * ctl :=
  if ciphers c then
    let (ct, iv) := cbc_enc (key c) (wiv c) nb (sub off (16 * nb) (msg c)) in
    write_raw (set_wiv (set_msg c (put off ct (msg c))) iv) ct
  else write_raw c (sub off (16 * nb) (msg c)).

(** io.c 49-75: _OWPReceiveBlocksIntr into &buf[off] *)
Definition recv_blocks (c : ctl) (off nb : nat) : ioret * ctl :=
  match read_raw c off (16 * nb) with
  | (IODone, c1) =>
      if ciphers c1 then
        let (p, iv) := cbc_dec (key c1) (riv c1) nb (sub off (16 * nb) (msg c1)) in
        (IODone, set_riv (set_msg c1 (put off p (msg c1))) iv)
      else (IODone, c1)
  | r => r
  end.

(** io.c 258-273: _OWPSendHMACAdd of [nb] blocks at buf[off] *)
Definition shm_add (c : ctl) (off nb : nat) : ctl :=
  if ciphers c then set_shm c (shm c ++ sub off (16 * nb) (msg c)) else c.

(** io.c 291-313: _OWPSendHMACDigestClear into buf[off] *)
Definition shm_digest (c : ctl) (off : nat) : ctl :=
  if ciphers c
  then set_shm (set_msg c (put off (firstn 16 (H (hkey c) (shm c))) (msg c))) []
  else set_msg c (put off (zeros 16) (msg c)).

(** io.c 329-344: _OWPRecvHMACAdd *)
Definition rhm_add (c : ctl) (off nb : nat) : ctl :=
  if ciphers c then set_rhm c (rhm c ++ sub off (16 * nb) (msg c)) else c.

(** io.c 363-386: _OWPRecvHMACCheckClear of buf[off] *)
Definition rhm_check (c : ctl) (off : nat) : bool * ctl :=
  if ciphers c
  then (eqb_octets (sub off 16 (msg c)) (firstn 16 (H (hkey c) (rhm c))), set_rhm c [])
  else (true, c).

(** protocol.c 256-280: GetAcceptType *)
Definition get_accept (v : Z) : Z := if (0 <=? v) && (v <=? 5) then v else CNTRL_INVALID.

(** ** Connection set-up *)

(** protocol.c 79-118: _OWPWriteServerGreeting *)
Definition write_greeting (c : ctl) (modes : Z) (challenge salt : list Z) (count : Z) : Z * ctl :=
  if negb (st c =? 0) then (ErrFATAL, c) else
  let c := set_msg c (put 48 (be_enc 4 count) (put 32 salt (put 16 challenge (put 12 (be_enc 4 modes)
             (put 0 (zeros 64) (msg c)))))) in
  match write_raw c (sub 0 64 (msg c)) with
  | (IODone, c) => (ErrOK, set_st c StSetup)
  | (_, c) => (ErrFATAL, c)
  end.

(** protocol.c 120-152: _OWPReadServerGreeting; result mode, challenge, salt, count *)
Definition read_greeting (c : ctl) : Z * (Z * list Z * list Z * Z) * ctl :=
  if negb (st c =? 0) then (ErrFATAL, (0, [], [], 0), c) else
  match read_raw c 0 64 with
  | (IODone, c) =>
      (ErrOK, (be_dec (sub 12 4 (msg c)), sub 16 16 (msg c), sub 32 16 (msg c), be_dec (sub 48 4 (msg c))),
       set_st c StSetup)
  | (_, c) => (ErrFATAL, (0, [], [], 0), c)
  end.

(** protocol.c 186-214: _OWPWriteSetupResponse; [userid]: the 80 octets at cntrl->userid *)
Definition write_setup (c : ctl) (userid token : list Z) : Z * ctl :=
  if negb (st c =? StSetup) then (ErrFATAL, c) else
  let m := put 0 (be_enc 4 (mode c)) (put 0 (zeros 164) (msg c)) in
  let m := if ciphers c then put 148 (wiv c) (put 84 token (put 4 userid m)) else m in
  match write_raw (set_msg c m) (sub 0 164 m) with
  | (IODone, c) => (ErrOK, c)
  | (_, c) => (ErrFATAL, c)
  end.

(** protocol.c 216-254: _OWPReadSetupResponse; result mode, userid (80 octets), token, client IV *)
Definition read_setup (c : ctl) : Z * (Z * list Z * list Z * list Z) * ctl :=
  if negb (st c =? StSetup) then (ErrFATAL, (0, [], [], []), c) else
  match read_raw c 0 164 with
  | (IODone, c) =>
      (ErrOK, (be_dec (sub 0 4 (msg c)), sub 4 80 (msg c), sub 84 64 (msg c), sub 148 16 (msg c)), c)
  | (_, c) => (ErrFATAL, (0, [], [], []), c)
  end.

(** protocol.c 309-377: _OWPWriteServerStart *)
Definition write_server_start (c : ctl) (code uptime : Z) : Z * ctl :=
  if negb (st c =? StSetup) then (ErrFATAL, c) else
  let m := put 16 (wiv c) (put 15 [Z.land code 255] (put 0 (zeros 15) (msg c))) in
  let c :=
    if code =? CNTRL_ACCEPT
    then set_st (set_msg c (put 40 (zeros 8) (put 32 (enc_num64 uptime) m))) StRequest
    else set_st (set_mode (set_msg c (put 32 (zeros 16) m)) MODE_OPEN) StInvalid in
  let c := shm_add c 32 1 in
  let c := if ciphers c then
             let (ct, iv) := cbc_enc (key c) (wiv c) 1 (sub 32 16 (msg c)) in
             set_wiv (set_msg c (put 32 ct (msg c))) iv
           else c in
  match write_raw c (sub 0 48 (msg c)) with
  | (IODone, c) => (ErrOK, c)
  | (_, c) => (ErrFATAL, c)
  end.

(** protocol.c 379-444: _OWPReadServerStart; result accept value, uptime *)
Definition read_server_start (c : ctl) : Z * (Z * Z) * ctl :=
  if negb (st c =? StSetup) then (ErrFATAL, (CNTRL_INVALID, 0), c) else
  match read_raw c 0 32 with
  | (IODone, c) =>
      let a := get_accept (byte 15 (msg c)) in
      if a =? CNTRL_INVALID then (ErrFATAL, (a, 0), invalid c) else
      let c := set_riv c (sub 16 16 (msg c)) in
      let c := if a =? CNTRL_ACCEPT then c else set_mode c MODE_OPEN in
      match recv_blocks c 0 1 with
      | (IODone, c) =>
          let c := rhm_add c 0 1 in
          (ErrOK, (a, dec_num64 (sub 0 8 (msg c))), set_st c StRequest)
      | (_, c) => (ErrFATAL, (a, 0), invalid c)
      end
  | (_, c) => (ErrFATAL, (CNTRL_INVALID, 0), invalid c)
  end.

(** ** Requests *)

(** protocol.c 455-527: OWPReadRequestType *)
Definition read_request_type (c : ctl) : Z * ctl :=
  if negb (is_st StRequest c) || is_st StReading c then (ReqInvalid, c) else
  match recv_blocks c 0 1 with
  | (IODone, c) =>
      let t := byte 0 (msg c) in
      if (is_st StTest c && negb (t =? 3)) || (negb (is_st StTest c) && (t =? 3))
      then (ReqInvalid, invalid c) else
      if t =? 1 then (t, or_st c StTestRequest) else
      if t =? 2 then (t, or_st c StStartSessions) else
      if t =? 3 then (t, or_st c StStopSessions) else
      if t =? 4 then (t, or_st c StFetchSession) else
      if t =? 5 then (t, or_st c StTestRequestTW) else
      (ReqInvalid, invalid c)
  | (IOFailed true, c) => (ReqSockIntr, invalid c)
  | (_, c) => (ReqSockClose, invalid c)
  end.

(** protocol.c 1061-1073: the loop over the slots *)
Fixpoint write_slots (c : ctl) (slots : list slot) : bool * ctl :=
  match slots with
  | [] => (true, c)
  | s :: r =>
      match encode_slot s with
      | None => (false, invalid c)
      | Some b =>
          let c := set_msg c (put 0 b (msg c)) in
          let c := shm_add c 0 1 in
          match send_blocks c 0 1 with
          | (IODone, c) => write_slots c r
          | (_, c) => (false, invalid c)
          end
      end
  end.

(** protocol.c 1006-1087: _OWPWriteTestRequest.  [slots] of the specification holds exactly nslots
    entries. *)
Definition write_test_request (c : ctl) (sender receiver : saddr) (cs cr za : bool)
    (sid : option (list Z)) (t : testspec) : Z * ctl :=
  if negb (is_st StRequest c) || is_st StPending c then (ErrFATAL, c) else
  match encode_preamble (msg c) 400 sender receiver cs cr (twoway c) za sid t with
  | None => (ErrFATAL, c)
  | Some m =>
      let c := shm_digest (shm_add (set_msg c m) 0 6) 96 in
      match send_blocks c 0 7 with
      | (IODone, c) =>
          if twoway c then (ErrOK, or_st c StAcceptSession) else
          match write_slots c (match ts_slots t with Some l => l | None => [] end) with
          | (true, c) =>
              match send_blocks (shm_digest c 0) 0 1 with
              | (IODone, c) => (ErrOK, or_st c StAcceptSession)
              | (_, c) => (ErrFATAL, invalid c)
              end
          | (false, c) => (ErrFATAL, c)
          end
      | (_, c) => (ErrFATAL, invalid c)
      end
  end.

(** protocol.c 1154-1189: the slot-reading loop; [keep]: the slot array could be allocated *)
Fixpoint read_slots_loop (c : ctl) (n : nat) (keep : bool) : option (list slot) * ctl :=
  match n with
  | O => (Some [], c)
  | S k =>
      match recv_blocks c 0 1 with
      | (IODone, c) =>
          let c := rhm_add c 0 1 in
          if keep then
            match decode_slot (sub 0 16 (msg c)) with
            | None => (None, invalid c)
            | Some s => match read_slots_loop c k keep with
                        | (Some l, c) => (Some (s :: l), c)
                        | r => r
                        end
            end
          else read_slots_loop c k keep
      | (_, c) => (None, invalid c)
      end
  end.

(** protocol.c 1136-1220: _OWPReadTestRequestSlots *)
Definition read_slots (c : ctl) (nslots : Z) (keep : bool) : option (list slot) * ctl :=
  if negb (is_st StTestRequestSlots c) then (None, c) else
  match read_slots_loop c (Z.to_nat nslots) keep with
  | (None, c) => (None, c)
  | (Some l, c) =>
      match recv_blocks c 0 1 with
      | (IODone, c) =>
          let (ok, c) := rhm_check c 0 in
          if ok then (Some l, clr_st c StTestRequestSlots) else (None, invalid c)
      | (_, c) => (None, invalid c)
      end
  end.

(** IN6_IS_ADDR_LINKLOCAL: fe80::/10 *)
Definition link_local (a : saddr) : bool :=
  family_eqb (sa_family a) AF_INET6 && (byte 0 (sa_addr a) =? 254) && (Z.land (byte 1 (sa_addr a)) 192 =? 128).

(** protocol.c 1222-1260: _OWPTestSessionSetIPv6LLScope, whether it succeeds (scope ids are not
    modelled) *)
Definition ll_scope_ok (cntrl_sa test_sa : saddr) : bool :=
  negb (link_local test_sa) || link_local cntrl_sa.

(** protocol.c 1262-1294: _OWPSetSAddrIfUnspec *)
Definition set_if_unspec (cntrl_sa test_sa : saddr) : saddr :=
  match sa_family test_sa with
  | AF_OTHER => test_sa
  | f => if forallb (Z.eqb 0) (sa_addr test_sa) && family_eqb (sa_family cntrl_sa) f
         then mkSA f (sa_port test_sa) (sa_addr cntrl_sa) else test_sa
  end.

(** What _OWPReadTestRequest puts into the OWPTestSession *)
Record request := mkReq {
  q_sender : saddr; q_receiver : saddr; q_conf_sender : bool; q_conf_receiver : bool;
  q_sid : list Z; q_spec : testspec }.

(** protocol.c 1316-1567: _OWPReadTestRequest.  [server]: accept_ret is non-null; [alloc_ok]: the
    session record can be allocated; [slots_ok]: so can the slot array when more than ten slots
    are asked for (_OWPSLOT_BUFSIZE).  Result severity, session, accept value.
    Simplification: in client context a preamble with an unsupported content (decode WARNING)
    is treated as an error; the C code goes on with a zeroed specification. *)
Definition read_test_request (c : ctl) (server alloc_ok slots_ok : bool) : Z * option request * Z * ctl :=
  if negb (is_st (if twoway c then StTestRequestTW else StTestRequest) c)
  then (ErrFATAL, None, CNTRL_FAILURE, c) else
  let (r0, c) := if server then (IODone, c) else recv_blocks c 0 1 in
  match r0 with
  | IODone =>
    match recv_blocks c 16 6 with
    | (IODone, c) =>
      let c := rhm_add c 0 6 in
      let (ok, c) := rhm_check c 96 in
      if negb ok then (ErrFATAL, None, CNTRL_INVALID, invalid c) else
      match decode_preamble server (sub 0 112 (msg c)) 112 (twoway c) 128 with
      | PreFatal => (ErrFATAL, None, CNTRL_INVALID, invalid c)
      | PreWarning => (ErrFATAL, None, CNTRL_UNSUPPORTED, c)
      | PreOK p =>
        if negb (ll_scope_ok (remote c) (p_sender p)) then (ErrFATAL, None, CNTRL_UNSUPPORTED, c) else
        if negb (ll_scope_ok (remote c) (p_receiver p)) then (ErrFATAL, None, CNTRL_UNSUPPORTED, c) else
        let sa := if twoway c then set_if_unspec (remote c) (p_sender p) else p_sender p in
        let ra := if twoway c then set_if_unspec (local c) (p_receiver p) else p_receiver p in
        let c := or_st (clr_st c StTestRequest) StTestRequestSlots in
        if negb alloc_ok then (ErrWARNING, None, CNTRL_FAILURE, c) else
        let done := if server then StAcceptSession else StFetching in
        let mk sid slots :=
          mkReq sa ra (p_conf_sender p) (p_conf_receiver p) sid
            (mkTSpec (p_start p) (p_timeout p) (p_typeP p) (p_padding p) (p_npackets p) (p_nslots p) slots) in
        if twoway c then (ErrOK, Some (mk (zeros 16) None), CNTRL_ACCEPT, or_st c done) else
        let keep := slots_ok || (p_nslots p <=? 10) in
        match read_slots c (p_nslots p) keep with
        | (None, c) => (ErrFATAL, None, CNTRL_INVALID, invalid c)
        | (Some l, c) =>
            if keep then (ErrOK, Some (mk (p_sid p) (Some l)), CNTRL_ACCEPT, or_st c done)
            else (ErrFATAL, None, CNTRL_FAILURE, c)
        end
      end
    | (_, c) => (ErrFATAL, None, CNTRL_INVALID, invalid c)
    end
  | _ => (ErrFATAL, None, CNTRL_INVALID, invalid c)
  end.

(** protocol.c 1596-1633: _OWPWriteAcceptSession *)
Definition write_accept (c : ctl) (acceptval port : Z) (sid : option (list Z)) : Z * ctl :=
  if negb (is_st StAcceptSession c) then (ErrFATAL, c) else
  let m := put 2 (be_enc 2 port) (put 0 [Z.land acceptval 255] (put 0 (zeros 400) (msg c))) in
  let m := match sid with Some s => put 4 s m | None => m end in
  let c := shm_digest (shm_add (set_msg c m) 0 2) 32 in
  match send_blocks c 0 3 with
  | (IODone, c) => (ErrOK, clr_st c StAcceptSession)
  | (_, c) => (ErrFATAL, invalid c)
  end.

(** protocol.c 1635-1688: _OWPReadAcceptSession; result accept value, port, sid *)
Definition read_accept (c : ctl) : Z * (Z * Z * list Z) * ctl :=
  if negb (is_st StAcceptSession c) then (ErrFATAL, (CNTRL_INVALID, 0, []), c) else
  match recv_blocks c 0 3 with
  | (IODone, c) =>
      let (ok, c) := rhm_check (rhm_add c 0 2) 32 in
      if negb ok then (ErrFATAL, (CNTRL_INVALID, 0, []), invalid c) else
      let a := get_accept (byte 0 (msg c)) in
      if a =? CNTRL_INVALID then (ErrFATAL, (a, 0, []), invalid c) else
      (ErrOK, (a, be_dec (sub 2 2 (msg c)), sub 4 16 (msg c)), clr_st c StAcceptSession)
  | (_, c) => (ErrFATAL, (CNTRL_INVALID, 0, []), invalid c)
  end.

(** protocol.c 1712-1743: _OWPWriteStartSessions *)
Definition write_start (c : ctl) : Z * ctl :=
  if negb (is_st StRequest c) || is_st StPending c then (ErrFATAL, c) else
  let m := put 1 (zeros 31) (put 0 [2] (msg c)) in
  let c := shm_digest (shm_add (set_msg c m) 0 1) 16 in
  match send_blocks c 0 2 with
  | (IODone, c) => (ErrOK, or_st (or_st c StStartAck) StTest)
  | (_, c) => (ErrFATAL, invalid c)
  end.

(** protocol.c 1745-1805: _OWPReadStartSessions *)
Definition read_start (c : ctl) : Z * ctl :=
  if negb (is_st StStartSessions c) then (ErrFATAL, c) else
  match recv_blocks c 16 1 with
  | (IODone, c) =>
      let (ok, c) := rhm_check (rhm_add c 0 1) 16 in
      if negb ok then (ErrFATAL, invalid c) else
      if negb (byte 0 (msg c) =? 2) then (ErrFATAL, invalid c) else
      (ErrOK, or_st (or_st (clr_st c StStartSessions) StStartAck) StTest)
  | (IOFailed true, c) => (ErrFATAL, c)
  | (_, c) => (ErrFATAL, invalid c)
  end.

(** protocol.c 1829-1875: _OWPWriteStartAck *)
Definition write_start_ack (c : ctl) (acceptval : Z) : Z * ctl :=
  if negb (is_st StStartAck c) then (ErrFATAL, c) else
  let m := put 1 (zeros 15) (put 0 [Z.land acceptval 255] (msg c)) in
  let c := shm_digest (shm_add (set_msg c m) 0 1) 16 in
  match send_blocks c 0 2 with
  | (IODone, c) =>
      let c := clr_st c StStartAck in
      (ErrOK, if acceptval =? CNTRL_ACCEPT then c else clr_st c StTest)
  | (IOFailed true, c) => (ErrFATAL, c)
  | (_, c) => (ErrFATAL, invalid c)
  end.

(** protocol.c 1877-1932: _OWPReadStartAck *)
Definition read_start_ack (c : ctl) : Z * Z * ctl :=
  if negb (is_st StStartAck c) then (ErrFATAL, CNTRL_INVALID, c) else
  match recv_blocks c 0 2 with
  | (IODone, c) =>
      let (ok, c) := rhm_check (rhm_add c 0 1) 16 in
      if negb ok then (ErrFATAL, CNTRL_INVALID, invalid c) else
      let a := get_accept (byte 0 (msg c)) in
      if a =? CNTRL_INVALID then (ErrFATAL, a, invalid c) else
      let c := clr_st c StStartAck in
      (ErrOK, a, if a =? CNTRL_ACCEPT then c else or_st (clr_st c StTest) StRequest)
  | (_, c) => (ErrFATAL, CNTRL_INVALID, invalid c)
  end.

(** protocol.c 2662-2700: _OWPWriteFetchSession *)
Definition write_fetch (c : ctl) (begin_ end_ : Z) (sid : list Z) : Z * ctl :=
  if negb (is_st StRequest c) || is_st StTest c then (ErrFATAL, c) else
  if twoway c then (ErrFATAL, c) else
  let m := put 16 sid (put 12 (be_enc 4 end_) (put 8 (be_enc 4 begin_) (put 1 (zeros 7) (put 0 [4] (msg c))))) in
  let c := shm_digest (shm_add (set_msg c m) 0 2) 32 in
  match send_blocks c 0 3 with
  | (IODone, c) => (ErrOK, clr_st (or_st c (Z.lor StFetchAck StFetchSession)) StRequest)
  | (_, c) => (ErrFATAL, c)
  end.

(** protocol.c 2702-2772: _OWPReadFetchSession; result begin, end, sid *)
Definition read_fetch (c : ctl) : Z * (Z * Z * list Z) * ctl :=
  if negb (is_st StFetchSession c) then (ErrFATAL, (0, 0, []), c) else
  if twoway c then (ErrFATAL, (0, 0, []), c) else
  match recv_blocks c 16 2 with
  | (IODone, c) =>
      let (ok, c) := rhm_check (rhm_add c 0 2) 32 in
      if negb ok then (ErrFATAL, (0, 0, []), invalid c) else
      if negb (byte 0 (msg c) =? 4) then (ErrFATAL, (0, 0, []), invalid c) else
      (ErrOK, (be_dec (sub 8 4 (msg c)), be_dec (sub 12 4 (msg c)), sub 16 16 (msg c)),
       or_st (clr_st (clr_st c StFetchSession) StRequest) (Z.lor StFetchAck StFetching))
  | (IOFailed true, c) => (ErrFATAL, (0, 0, []), c)
  | (_, c) => (ErrFATAL, (0, 0, []), invalid c)
  end.

(** protocol.c 2798-2865: _OWPWriteFetchAck *)
Definition write_fetch_ack (c : ctl) (acceptval finished next_seqno nskips ndata : Z) : Z * ctl :=
  if negb (is_st StFetchAck c) then (ErrFATAL, c) else
  let m := put 1 [Z.land finished 255] (put 0 [Z.land acceptval 255] (put 0 (zeros 32) (msg c))) in
  let m := if finished =? 0 then m else put 8 (be_enc 4 nskips) (put 4 (be_enc 4 next_seqno) m) in
  let m := put 12 (be_enc 4 ndata) m in
  let c := shm_digest (shm_add (set_msg c m) 0 1) 16 in
  match send_blocks c 0 2 with
  | (IODone, c) =>
      let c := clr_st c StFetchAck in
      (ErrOK, if acceptval =? CNTRL_ACCEPT then c else or_st (clr_st c StFetching) StRequest)
  | (IOFailed true, c) => (ErrFATAL, c)
  | (_, c) => (ErrFATAL, invalid c)
  end.

(** protocol.c 2867-2930: _OWPReadFetchAck; result accept, finished, next_seqno, nskips, ndata *)
Definition read_fetch_ack (c : ctl) : Z * (Z * Z * Z * Z * Z) * ctl :=
  if negb (is_st StFetchAck c) then (ErrFATAL, (CNTRL_INVALID, 0, 0, 0, 0), c) else
  match recv_blocks c 0 2 with
  | (IODone, c) =>
      let (ok, c) := rhm_check (rhm_add c 0 1) 16 in
      if negb ok then (ErrFATAL, (CNTRL_INVALID, 0, 0, 0, 0), invalid c) else
      let a := get_accept (byte 0 (msg c)) in
      if a =? CNTRL_INVALID then (ErrFATAL, (a, 0, 0, 0, 0), invalid c) else
      let r := (a, byte 1 (msg c), be_dec (sub 4 4 (msg c)), be_dec (sub 8 4 (msg c)), be_dec (sub 12 4 (msg c))) in
      let c := clr_st (clr_st c StFetchAck) StFetchSession in
      (ErrOK, r, if a =? CNTRL_ACCEPT
                 then or_st c (if twoway c then StTestRequestTW else StTestRequest)
                 else or_st c StRequest)
  | (_, c) => (ErrFATAL, (CNTRL_INVALID, 0, 0, 0, 0), invalid c)
  end.

(** sapi.c 1501-1528: OWPUnexpectedRequestType *)
Definition unexpected_request (c : ctl) : Z * ctl :=
  if negb (twoway c) then (ErrFATAL, c) else
  let (rc, c) := write_accept (or_st c StAcceptSession) CNTRL_UNSUPPORTED 0 None in
  (rc, set_st c StRequest).

End Crypto.
