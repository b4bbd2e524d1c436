(** Model of run_sender, endpoint.c 1271-1661, and skip, endpoint.c 1142-1199, over an arbitrary
    environment.  All line numbers refer to /repo/owamp/owamp/owamp/.
    Simplifications: memory allocation does not fail; the lists of skip nodes (which are allocated
    in arrays) are lists in order; the first arguments of OWPNum64ToTimespec etc. are as computed in
    Arith_Model; writing of the skip file does not fail (a failure is an exit without a report). *)
From Coq Require Import ZArith List Bool.
From Verif Require Import Base Arith_Model Time_Model Wire_Model Control_Model Packet_Model.
Import ListNotations.
Open Scope Z_scope.

(** endpoint.c 1493-1517: what sendto returns: success, ENOBUFS, one of EBADF/EACCES/ENOTSOCK/
    EFAULT/EAGAIN, any other error *)
Inductive sendres := SendOK | SendNoBufs | SendFatal | SendOther.

(** What the environment does in one passage from the label AGAIN on (1419): flags owp_int and
    owp_usr2 when they are tested, clock reading (time, error, sync; None: failure), flags when they are
    tested again before sending, result of sendto, whether nanosleep succeeded or was interrupted *)
Record senv := mkSE {
  se_int : bool; se_usr2 : bool; se_clock : option (tspec * Z * Z); se_int2 : bool; se_usr22 : bool;
  se_send : sendres; se_sleep : bool }.

(** the same for the loop at the end (1566-1590): flags, clock, nanosleep = 0, errno = EINTR *)
Record tenv := mkTE { te_int : bool; te_usr2 : bool; te_clock : option (tspec * Z * Z); te_slept : bool; te_eintr : bool }.

(** what happens to packets (for the specification only): the clock reading, the scheduled time, the
    octets and the result of each call of sendto; clock reading and scheduled time of each skip *)
Inductive sevent :=
| EvSend (seq : Z) (clock sched : tspec) (pkt : list Z) (res : sendres)
| EvSkip (seq : Z) (clock sched : tspec).

(** endpoint.c 1142-1199: skip.  The list of skip records in order; [tail_skip] is the last one. *)
Fixpoint skip (l : list skiprec) (seq : Z) : list skiprec :=
  match l with
  | [] => [mkSkip seq seq]
  | [s] => if u32 (sk_end s + 1) =? seq then [mkSkip (sk_begin s) seq] else [s; mkSkip seq seq]
  | s :: r => s :: skip r seq
  end.

(** local variables of run_sender: i, nextoffset, nexttime, owptstamp, lasterror; skip list; events *)
Record sstate := mkSS {
  s_i : Z; s_off : Z; s_next : tspec; s_ts : timestamp; s_last : Z; s_skips : list skiprec; s_log : list sevent }.

Section Sender.
Variable E : list Z -> list Z -> list Z.
Variable H : list Z -> list Z -> list Z.
(** parameters of the session: mode, keys, start time as timespec (endpoint.c 467-468), loss timeout,
    number of packets, delay before each packet (GenerateNextDelta), padding of each packet *)
Variable mode : Z.
Variable aeskey hmackey : list Z.
Variable start : tspec.
Variable timeout : Z.
Variable npackets : Z.
Variable delta : nat -> Z.
Variable padding : Z -> list Z.

(** endpoint.c 1366: timespec of the loss timeout *)
Definition s_timeout : tspec := OWPNum64ToTimespec timeout.

(** endpoint.c 1380-1392: set up packet [i] *)
Definition s_setup (i off : Z) (st : sstate) : sstate :=
  let off := OWPNum64Add off (delta (Z.to_nat i)) in
  mkSS i off (ts_add (OWPNum64ToTimespec off) start) (s_ts st) (s_last st) (s_skips st) (s_log st).

(** endpoint.c 1521, 1549: the end of the do loop for packet i *)
Inductive sstep := SGo (st : sstate) | SEnd (st : sstate) | SStop (st : sstate) | SExit (log : list sevent).
Definition s_advance (st : sstate) : sstep :=
  let i := u32 (s_i st + 1) in
  let st' := mkSS i (s_off st) (s_next st) (s_ts st) (s_last st) (s_skips st) (s_log st) in
  if i <? npackets then SGo (s_setup i (s_off st) st') else SEnd st'.

(** endpoint.c 1419-1547: one passage from AGAIN (or RETRY, which leads there) *)
Definition s_pass (st : sstate) (e : senv) : sstep :=
  if se_int e || se_usr2 e then SStop st else
  match se_clock e with
  | None => SExit (s_log st)
  | Some (cur, err, sy) =>
      if ts_gt cur (s_next st) then
        if ts_gt cur (ts_add s_timeout (s_next st)) then
          s_advance (mkSS (s_i st) (s_off st) (s_next st) (s_ts st) (s_last st) (skip (s_skips st) (s_i st))
                       (s_log st ++ [EvSkip (s_i st) cur (s_next st)]))
        else
          let ts := OWPTimespecToTimestamp (s_ts st) cur (Some err) (Some (s_last st)) in
          let ts := mkTS (owptime ts) sy (multiplier ts) (scale ts) in
          let keep := mkSS (s_i st) (s_off st) (s_next st)
             (match encode_errest ts with Some _ => ts | None => mkTS (owptime ts) 0 255 63 end) err (s_skips st) in
          if se_int2 e || se_usr22 e then SStop (keep (s_log st)) else
          match build_packet E H mode aeskey hmackey (padding (s_i st)) (s_i st) ts with
          | None => SExit (s_log st)
          | Some pkt =>
              let log := s_log st ++ [EvSend (s_i st) cur (s_next st) pkt (se_send e)] in
              match se_send e with
              | SendNoBufs => SGo (keep log)
              | SendFatal => SExit log
              | SendOK | SendOther => s_advance (keep log)
              end
          end
      else if se_sleep e then SGo st else SExit (s_log st)
  end.

(** the loop over all packets; [SGo]: not finished when the environment ends *)
Fixpoint s_loop (st : sstate) (es : list senv) : sstep :=
  match es with
  | [] => SGo st
  | e :: r => match s_pass st e with SGo st' => s_loop st' r | o => o end
  end.

(** endpoint.c 1561-1590: wait for the end of the session; [enddelay]: OWPEndDelay.
    true: go on to finish_sender; false: exit; None: still waiting *)
Fixpoint s_tail (late : tspec) (es : list tenv) : option bool :=
  match es with
  | [] => None
  | e :: r =>
      if te_usr2 e || te_int e then Some true else
      match te_clock e with
      | None => Some false
      | Some (cur, _, _) =>
          if ts_lt late cur then Some true else
          if te_slept e then Some true else
          if te_eintr e then s_tail late r else Some false
      end
  end.

(** endpoint.c 1603-1658: the skip file: next sequence number, number of skip records, records *)
Definition skip_file (st : sstate) : list Z :=
  be_enc 4 (s_i st) ++ be_enc 4 (u32 (Z.of_nat (length (s_skips st)))) ++ concat (map encode_skip (s_skips st)).

(** Outcome: still running; exit with a failure (no report); report written (the file contents,
    exit status OWP_CNTRL_ACCEPT). *)
Inductive soutcome := SORunning (st : sstate) | SOFailed (log : list sevent) | SOReport (st : sstate) (file : list Z).

(** endpoint.c 1592-1598: finish_sender; [int]: owp_int *)
Definition s_finish (int : bool) (st : sstate) : soutcome :=
  if int then SOFailed (s_log st) else SOReport st (skip_file st).

(** endpoint.c 1271-1661: run_sender *)
Definition s_init : sstate := s_setup 0 (OWPULongToNum64 0) (mkSS 0 0 (0,0) (mkTS 0 0 0 0) 0 [] []).
Definition run_sender (enddelay : tspec) (es : list senv) (tes : list tenv) (int : bool) : soutcome :=
  match s_loop s_init es with
  | SGo st => SORunning st
  | SExit log => SOFailed log
  | SStop st => s_finish int st
  | SEnd st =>
      match s_tail (ts_add (ts_add s_timeout (s_next st)) enddelay) tes with
      | None => SORunning st
      | Some false => SOFailed (s_log st)
      | Some true => s_finish int st
      end
  end.
End Sender.
