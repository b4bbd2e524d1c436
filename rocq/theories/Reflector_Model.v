(** Model of the reflector of two-way sessions: run_reflector, endpoint.c 2577-3071, and of the part of
    run_tw_test (endpoint.c 3571-3700) that takes its replies apart, over an arbitrary environment.
    All line numbers refer to /repo/owamp/owamp/owamp/endpoint.c.
    Simplifications: timers can be set; encryption does not fail; the two tests of the flags at 2801-2806 and
    2818-2823, between which nothing but a computation happens, are one. *)
From Coq Require Import ZArith List Bool.
From Verif Require Import Base Arith_Model Time_Model Wire_Model Control_Model Packet_Model Sender_Model Receiver_Model.
Import ListNotations.
Open Scope Z_scope.

(** 2648-2704: offsets in the request (time, error estimate, code) and in the reply (time, error estimate,
    receive time, sender's number, time, error estimate and TTL, code, padding) *)
Record req_layout := mkRL { q_tstamp : nat; q_tstamperr : nat; q_padding : nat }.
Record rep_layout := mkPL { p_tstamp : nat; p_tstamperr : nat; p_rcv : nat; p_sseq : nat; p_sts : nat; p_serr : nat;
  p_sttl : nat; p_padding : nat }.
Definition open_mode (mode : Z) : bool := (mode =? MODE_OPEN) || (mode =? MODE_MIXED).
Definition req_at (mode : Z) : req_layout := if open_mode mode then mkRL 4 12 14 else mkRL 16 24 48.
Definition rep_at (mode : Z) : rep_layout :=
  if open_mode mode then mkPL 4 12 16 24 28 36 40 41 else mkPL 16 24 32 48 64 72 80 112.

(** what recvfromttl does: fails, or reads a datagram; [peer]: its source is the address of
    the sender; [known]: the ancillary data is as expected, otherwise the negated length is returned (1909-1917) *)
Inductive rfrx := FxFail | FxData (peer known : bool) (data : list Z) (ttl : Z).

(** one attempt to send the reply: clock, whether owp_int or owp_usr2 is set before sending, result of sendto *)
Record fattempt := mkFA { fa_clock : option (tspec * Z * Z); fa_stop : bool; fa_send : sendres }.

(** one passage through the loop: flags; reception; errno is EINTR after it (sigsuspend, line 4081, left it so before
    the first passage, and successful calls do not change it); flags, [CInt] also for the timer; clock; flags; attempts *)
Record fenv := mkFE { fe_chk1 : chk; fe_rx : rfrx; fe_eintr : bool; fe_chk2 : chk; fe_clock : option (tspec * Z * Z);
  fe_chk3 : chk; fe_sends : list fattempt }.

(** what is handed to the network: number, octets, result *)
Record reply := mkReply { rp_seq : Z; rp_pkt : list Z; rp_res : sendres }.

(** local variables: i, the buffer ep->payload, owptstamp, lasterror, recv_tstamp, recv_lasterror; replies so far *)
Record fstate := mkFS { f_i : Z; f_buf : list Z; f_ts : timestamp; f_last : Z; f_rts : timestamp; f_rlast : Z; f_log : list reply }.

(** [FMore]: not finished when the environment ends; [FAgain]: in the loop 2942-3045 when the environment ends *)
Inductive fstep := FMore (st : fstate) | FAgain (log : list reply) | FEnd (log : list reply) | FFail (log : list reply).
Definition flog (r : fstep) : list reply :=
  match r with FMore st => f_log st | FAgain l | FEnd l | FFail l => l end.

Section Reflector.
Variable E D : list Z -> list Z -> list Z.
Variable H : list Z -> list Z -> list Z.
(** mode; ep->aeskey, ep->aes_tw_reply_key, ep->hmac_key; ep->len_payload *)
Variable mode : Z.
Variable aeskey replykey hmackey : list Z.
Variable len : nat.

(** 2858-2909: decrypt the request in place, and compare the code *)
Definition open_request (buf : list Z) : list Z * bool :=
  if open_mode mode then (buf, true) else
  let '(p1, iv) := cbc_dec D aeskey (zeros 16) 1 (sub 0 16 buf) in
  let buf := put 0 p1 buf in
  let '(buf, txt) :=
    if mode =? MODE_ENCR then
      let '(p2, _) := cbc_dec D aeskey iv 1 (sub 16 16 buf) in (put 16 p2 buf, p1 ++ p2)
    else (buf, p1) in
  (buf, eqb_octets (sub 32 16 buf) (firstn 16 (H hmackey txt))).

(** 2912-2939, 2951-2967: the fields of the reply in clear, in a buffer of zeros.  [sseq], [sts], [serr]: octets of
    the request.  In the authenticated modes reply_seq points to clr_buffer, whose other octets are zero or written
    anew for each packet. *)
Definition reply_fields (i : Z) (rcv : timestamp) (sseq sts serr : list Z) (ttl : Z) (ts : timestamp) : list Z :=
  let o := rep_at mode in
  let '(tb, eb) := stamp_octets ts in
  put (p_tstamperr o) eb (put (p_tstamp o) tb
    (put (p_sttl o) [u8 ttl] (put (p_serr o) serr (put (p_sts o) sts (put (p_sseq o) sseq
       (put (p_rcv o) (encode_timestamp rcv) (put 0 (be_enc 4 (u32 i)) (zeros (p_padding o))))))))).

(** 2975-3024: encrypt and add the code *)
Definition seal_reply (clr : list Z) : list Z :=
  if open_mode mode then clr else
  let n := if mode =? MODE_ENCR then 6%nat else 1%nat in
  let '(c, _) := cbc_enc E replykey (zeros 16) n (firstn (16 * n) clr) in
  put 96 (firstn 16 (H hmackey (firstn (16 * n) clr))) (put 0 c clr).

(** 2920-2924: keep the padding of the request *)
Definition keep_padding (buf : list Z) : list Z :=
  let o := p_padding (rep_at mode) in
  if (o <? len)%nat then put o (sub (q_padding (req_at mode)) (len - o) buf) buf else buf.

(** 2917-2918: length of the reply *)
Definition reply_len : nat := Nat.max len (p_padding (rep_at mode)).

(** 2941-3056: send the reply; [mk]: the reply as a function of the time stamp *)
Fixpoint f_send (st : fstate) (mk : timestamp -> list Z) (l : list fattempt) : fstep :=
  match l with
  | [] => FAgain (f_log st)
  | a :: l =>
      match fa_clock a with
      | None => FFail (f_log st)
      | Some (cur, err, sy) =>
          let ts := stamp (f_ts st) (f_last st) cur err sy in
          let buf := put 0 (mk ts) (f_buf st) in
          let ts' := match encode_errest ts with Some _ => ts | None => mkTS (owptime ts) 0 255 63 end in
          if fa_stop a then FFail (f_log st) else
          let log := f_log st ++ [mkReply (f_i st) (firstn reply_len buf) (fa_send a)] in
          let next i := mkFS i buf ts' err (f_rts st) (f_rlast st) log in
          match fa_send a with
          | SendNoBufs => f_send (next (f_i st)) mk l
          | SendFatal => FFail log
          | SendOK | SendOther => FMore (next (f_i st + 1))
          end
      end
  end.

Definition fchecked (c : chk) (st : fstate) (go : fstep) : fstep :=
  match c with CInt => FFail (f_log st) | CUsr2 => FEnd (f_log st) | CNone => go end.

(** 2733-3058: one passage through the loop *)
Definition f_pass (st : fstate) (e : fenv) : fstep :=
  fchecked (fe_chk1 e) st
    (let '(buf, ok) := match fe_rx e with
       | FxFail => (f_buf st, false)
       | FxData peer known data ttl => (put 0 (firstn len data) (f_buf st), known && (len <=? length data)%nat)
       end in
     if negb ok && negb (fe_eintr e) then FFail (f_log st) else
     fchecked (fe_chk2 e) st
       (match fe_clock e with
        | None => FFail (f_log st)
        | Some (cur, err, sy) =>
            fchecked (fe_chk3 e) st
              (let rts := OWPTimespecToTimestamp (f_rts st) cur (Some err) (Some (f_rlast st)) in
               let st buf := mkFS (f_i st) buf (f_ts st) (f_last st) rts err (f_log st) in
               match fe_rx e with
               | FxData true _ _ ttl =>
                   match open_request buf with
                   | (q, false) => FMore (st q)
                   | (q, true) =>
                       let o := req_at mode in
                       let mk ts := seal_reply (reply_fields (f_i (st q)) rts (sub 0 4 q) (sub (q_tstamp o) 8 q) (sub (q_tstamperr o) 2 q) ttl ts) in
                       f_send (st (keep_padding q)) mk (fe_sends e)
                   end
               | _ => FMore (st buf)
               end)
        end)).

Fixpoint f_loop (st : fstate) (es : list fenv) : fstep :=
  match es with
  | [] => FMore st
  | e :: r => match f_pass st e with FMore st' => f_loop st' r | o => o end
  end.

(** 2577-2731: the buffer was allocated by calloc (429-459: the size of the request and what replies are longer) *)
Definition f_init : fstate :=
  mkFS 0 (zeros (len + (p_padding (rep_at mode) - q_padding (req_at mode)))) (mkTS 0 0 0 0) 0 (mkTS 0 0 0 0) 0 [].
Definition run_reflector (es : list fenv) : fstep := f_loop f_init es.
End Reflector.
