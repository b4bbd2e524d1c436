(** Model of the program powstream: powstream/powstream.c, from the main loop on (line 1800).
    Everything the program learns from outside (clock readings, signals, results of library and system
    calls) is taken from a list of answers, one per question, in the order of the questions.
    Not modelled: option parsing, the lock file, the contents of the files (summaries: C69), memory
    allocation failures.  Log of events: see [event]. *)
From Coq Require Import ZArith List Bool.
From Verif Require Import Base Arith_Model.
Import ListNotations.
Open Scope Z_scope.

(** powstreamP.h 120-142: pow_cntrl_rec.  Pointers to connections and files: whether they are not NULL;
    [c_sctx]: the session identifier and the number of deltas drawn; [c_ptr]: nextSessionStart, which
    points to nextSessionStartNum if not NULL; [c_np]: numPackets is not 0; [c_stop]: call_stop;
    [c_started]: session_started.  [c_id] (not in the program): number of the session last started, 0: none. *)
Record conn := mkConn { c_cntrl : bool; c_fetch : bool; c_sctx : option (Z * nat); c_sid : Z; c_id : nat; c_ptr : bool; c_next : Z; c_end : Z; c_cur : Z; c_curend : Z; c_prev : Z; c_fp : bool; c_testfp : bool; c_np : bool; c_stop : bool; c_started : bool }.
Definition set_cntrl (v : bool) (c : conn) : conn := mkConn v (c_fetch c) (c_sctx c) (c_sid c) (c_id c) (c_ptr c) (c_next c) (c_end c) (c_cur c) (c_curend c) (c_prev c) (c_fp c) (c_testfp c) (c_np c) (c_stop c) (c_started c).
Definition set_fetch (v : bool) (c : conn) : conn := mkConn (c_cntrl c) v (c_sctx c) (c_sid c) (c_id c) (c_ptr c) (c_next c) (c_end c) (c_cur c) (c_curend c) (c_prev c) (c_fp c) (c_testfp c) (c_np c) (c_stop c) (c_started c).
Definition set_sctx (v : option (Z * nat)) (c : conn) : conn := mkConn (c_cntrl c) (c_fetch c) v (c_sid c) (c_id c) (c_ptr c) (c_next c) (c_end c) (c_cur c) (c_curend c) (c_prev c) (c_fp c) (c_testfp c) (c_np c) (c_stop c) (c_started c).
Definition set_sid (v : Z) (c : conn) : conn := mkConn (c_cntrl c) (c_fetch c) (c_sctx c) v (c_id c) (c_ptr c) (c_next c) (c_end c) (c_cur c) (c_curend c) (c_prev c) (c_fp c) (c_testfp c) (c_np c) (c_stop c) (c_started c).
Definition set_id (v : nat) (c : conn) : conn := mkConn (c_cntrl c) (c_fetch c) (c_sctx c) (c_sid c) v (c_ptr c) (c_next c) (c_end c) (c_cur c) (c_curend c) (c_prev c) (c_fp c) (c_testfp c) (c_np c) (c_stop c) (c_started c).
Definition set_ptr (v : bool) (c : conn) : conn := mkConn (c_cntrl c) (c_fetch c) (c_sctx c) (c_sid c) (c_id c) v (c_next c) (c_end c) (c_cur c) (c_curend c) (c_prev c) (c_fp c) (c_testfp c) (c_np c) (c_stop c) (c_started c).
Definition set_next (v : Z) (c : conn) : conn := mkConn (c_cntrl c) (c_fetch c) (c_sctx c) (c_sid c) (c_id c) (c_ptr c) v (c_end c) (c_cur c) (c_curend c) (c_prev c) (c_fp c) (c_testfp c) (c_np c) (c_stop c) (c_started c).
Definition set_end (v : Z) (c : conn) : conn := mkConn (c_cntrl c) (c_fetch c) (c_sctx c) (c_sid c) (c_id c) (c_ptr c) (c_next c) v (c_cur c) (c_curend c) (c_prev c) (c_fp c) (c_testfp c) (c_np c) (c_stop c) (c_started c).
Definition set_cur (v : Z) (c : conn) : conn := mkConn (c_cntrl c) (c_fetch c) (c_sctx c) (c_sid c) (c_id c) (c_ptr c) (c_next c) (c_end c) v (c_curend c) (c_prev c) (c_fp c) (c_testfp c) (c_np c) (c_stop c) (c_started c).
Definition set_curend (v : Z) (c : conn) : conn := mkConn (c_cntrl c) (c_fetch c) (c_sctx c) (c_sid c) (c_id c) (c_ptr c) (c_next c) (c_end c) (c_cur c) v (c_prev c) (c_fp c) (c_testfp c) (c_np c) (c_stop c) (c_started c).
Definition set_prev (v : Z) (c : conn) : conn := mkConn (c_cntrl c) (c_fetch c) (c_sctx c) (c_sid c) (c_id c) (c_ptr c) (c_next c) (c_end c) (c_cur c) (c_curend c) v (c_fp c) (c_testfp c) (c_np c) (c_stop c) (c_started c).
Definition set_fp (v : bool) (c : conn) : conn := mkConn (c_cntrl c) (c_fetch c) (c_sctx c) (c_sid c) (c_id c) (c_ptr c) (c_next c) (c_end c) (c_cur c) (c_curend c) (c_prev c) v (c_testfp c) (c_np c) (c_stop c) (c_started c).
Definition set_testfp (v : bool) (c : conn) : conn := mkConn (c_cntrl c) (c_fetch c) (c_sctx c) (c_sid c) (c_id c) (c_ptr c) (c_next c) (c_end c) (c_cur c) (c_curend c) (c_prev c) (c_fp c) v (c_np c) (c_stop c) (c_started c).
Definition set_np (v : bool) (c : conn) : conn := mkConn (c_cntrl c) (c_fetch c) (c_sctx c) (c_sid c) (c_id c) (c_ptr c) (c_next c) (c_end c) (c_cur c) (c_curend c) (c_prev c) (c_fp c) (c_testfp c) v (c_stop c) (c_started c).
Definition set_stop (v : bool) (c : conn) : conn := mkConn (c_cntrl c) (c_fetch c) (c_sctx c) (c_sid c) (c_id c) (c_ptr c) (c_next c) (c_end c) (c_cur c) (c_curend c) (c_prev c) (c_fp c) (c_testfp c) (c_np c) v (c_started c).
Definition set_started (v : bool) (c : conn) : conn := mkConn (c_cntrl c) (c_fetch c) (c_sctx c) (c_sid c) (c_id c) (c_ptr c) (c_next c) (c_end c) (c_cur c) (c_curend c) (c_prev c) (c_fp c) (c_testfp c) (c_np c) (c_stop c) v.

(** One answer of the outside world.  Each question uses some of the fields *)
Record ans := mkAns { a_ok : bool; a_num : Z; a_time : Z; a_hup : bool; a_term : bool }.

(** What happens, for the statements: a session is started (number, identifier, start time, time of the
    request plus the time reserved for it), it is over (stopped, or its connection closed), the summary
    of a range of its packets is put in place under a name made of two times, the same for the file of
    all records and the summary of all records; the setup of a session has failed (lines 1226-1249), a
    session that was set up is abandoned before its end, a summary could not be stored (all three are
    reported by messages) *)
Inductive event :=
| EStart (id : nat) (sid : Z) (start now : Z)
| EOver (id : nat)
| ESum (id : nat) (first last : Z) (from upto : Z)
| ESession (id : nat) (from upto : Z)
| EWhole (id : nat) (from upto : Z)
| EFailed
| EBroken (id : nat)
| EMissed (id : nat).

(** powstream.c 64-79 and 1275: pcntrl, which, the static first_time of line 943, pow_reset, pow_exit *)
Record world := mkWorld { w_c0 : conn; w_c1 : conn; w_which : bool; w_first : bool; w_hup : bool; w_term : bool; w_serial : nat;
  w_env : list ans; w_log : list event }.
Definition conn_of (b : bool) (w : world) : conn := if b then w_c1 w else w_c0 w.

(** how an execution can end: no more answers; exit(); NULL pointer used or failed assertion; an
    indeterminate string is printed; more nested signal checks than considered *)
Inductive halt := HNoMore | HExit | HCrash | HGarbage | HDeep.
Inductive res (A : Type) := Ret (a : A) | Halt (h : halt).
Arguments Ret {A}. Arguments Halt {A}.
Definition M (A : Type) : Type := world -> res A * world.
Definition ret {A} (a : A) : M A := fun w => (Ret a, w).
Definition stop {A} (h : halt) : M A := fun w => (Halt h, w).
Definition bind {A B} (m : M A) (f : A -> M B) : M B := fun w => match m w with (Ret a, w) => f a w | (Halt h, w) => (Halt h, w) end.
Notation "x <- m ;; k" := (bind m (fun x => k)) (at level 100, m at next level, right associativity).
Notation "m ;; k" := (bind m (fun _ => k)) (at level 100, right associativity).

(** access to the state *)
Definition getc (b : bool) : M conn := fun w => (Ret (conn_of b w), w).
Definition modc (b : bool) (f : conn -> conn) : M unit := fun w =>
  (Ret tt, mkWorld (if b then w_c0 w else f (w_c0 w)) (if b then f (w_c1 w) else w_c1 w) (w_which w) (w_first w) (w_hup w) (w_term w) (w_serial w) (w_env w) (w_log w)).
Definition emit (e : event) : M unit := fun w =>
  (Ret tt, mkWorld (w_c0 w) (w_c1 w) (w_which w) (w_first w) (w_hup w) (w_term w) (w_serial w) (w_env w) (w_log w ++ [e])).
Definition ask : M ans := fun w =>
  match w_env w with
  | [] => (Halt HNoMore, w)
  | a :: t => (Ret a, mkWorld (w_c0 w) (w_c1 w) (w_which w) (w_first w) (w_hup w) (w_term w) (w_serial w) t (w_log w))
  end.
Definition remaining : M nat := fun w => (Ret (S (length (w_env w))), w).
Definition set_flags (hup term : bool) : M unit := fun w =>
  (Ret tt, mkWorld (w_c0 w) (w_c1 w) (w_which w) (w_first w) hup term (w_serial w) (w_env w) (w_log w)).
Definition get_flags : M (bool * bool) := fun w => (Ret (w_hup w, w_term w), w).
(** powstream.c 1825-1827 *)
Definition take_turn : M bool := fun w =>
  (Ret (w_which w), mkWorld (w_c0 w) (w_c1 w) (negb (w_which w)) (w_first w) (w_hup w) (w_term w) (w_serial w) (w_env w) (w_log w)).
(** powstream.c 1062-1066: the flag first_time *)
Definition take_first : M bool := fun w =>
  (Ret (w_first w), mkWorld (w_c0 w) (w_c1 w) (w_which w) false (w_hup w) (w_term w) (w_serial w) (w_env w) (w_log w)).
Definition new_session : M nat := fun w =>
  (Ret (w_serial w), mkWorld (w_c0 w) (w_c1 w) (w_which w) (w_first w) (w_hup w) (w_term w) (S (w_serial w)) (w_env w) (w_log w)).
Definition when (b : bool) (m : M unit) : M unit := if b then m else ret tt.

Section Powstream.
(** the options and what is computed from them, powstream.c 1617-1663, 1722: packets in a summary
    (numBucketPackets), number of summaries, loss timeout (64 bit fixed point), iotime, retryDelay,
    delayStart (seconds), -t, -p; the schedule belonging to a session identifier *)
Variables N K : nat.
Variables loss iotime retry delay_start : Z.
Variables sender printfiles : bool.
Variable delta : Z -> nat -> Z.
(** 1617-1632: tspec.npackets; without summaries numBucketPackets is set to the number of packets *)
Definition npackets : nat := match K with O => N | _ => (N * K)%nat end.

(** schedule.c: OWPScheduleContextGenerateNextDelta of the context of a connection *)
Definition next_delta (b : bool) : M Z :=
  c <- getc b ;;
  match c_sctx c with
  | None => stop HCrash
  | Some (sid, n) => modc b (set_sctx (Some (sid, S n))) ;; ret (delta sid n)
  end.
(** 1138-1141, 627-630, 1925-1929: a number of deltas is added *)
Fixpoint add_deltas (n : nat) (b : bool) (t : Z) : M Z :=
  match n with
  | O => ret t
  | S n => d <- next_delta b ;; add_deltas n b (OWPNum64Add t d)
  end.
(** schedule.c: OWPScheduleContextReset(sctx,NULL,NULL) *)
Definition rewind (b : bool) : M unit :=
  c <- getc b ;;
  match c_sctx c with None => stop HCrash | Some (sid, _) => modc b (set_sctx (Some (sid, 0%nat))) end.

(** OWPControlClose of the control connection: a session on it is over *)
Definition close_cntrl (b : bool) : M unit :=
  c <- getc b ;; when (c_cntrl c) (emit (EOver (c_id c)) ;; modc b (set_cntrl false)).

Section SigCheck.
(** sig_check, for the check within FetchSession *)
Variable check : M bool.

(** powstream.c 378-424: FetchSession; whether there are records.  A signal check that reports nothing may have closed
    everything: OWPFetchSession(NULL) (owamp/capi.c 1459) *)
Definition fetch_session (b : bool) : M bool :=
  c <- getc b ;;
  interrupted <- (if c_fetch c then ret false else
    a <- ask ;;
    if a_ok a then modc b (set_fetch true) ;; s <- check ;; ret s else ret true) ;;
  if interrupted then ret false else
  c <- getc b ;;
  if negb (c_fetch c) then stop HCrash else
  a <- ask ;;
  if a_ok a then ret true else modc b (set_fetch false) ;; ret false.

(** powstream.c 443-823: write_session.  Answers: file positioned and truncated; header read; last
    record found (its number; the records are those of the session, so it is below npackets); file
    created (number 0: yes, 1: no, for lack of resources, other: no), copied and linked; summary made;
    file created, written and linked.  With -p the names are printed, even if they were never set *)
Definition write_session (b : bool) (aval : Z) (newend : bool) : M unit :=
  c <- getc b ;;
  if negb (c_fp c) || negb (c_started c) || negb (aval =? 0) then ret tt else
  go <- (if sender then
           if negb (c_testfp c) then ret false else
           a <- ask ;; if negb (a_ok a) then ret false else fetch_session b
         else ret true) ;;
  if negb go then ret tt else
  a <- ask ;;
  if negb (a_ok a) then ret tt else
  e <- (if newend then
          a <- ask ;;
          if negb (a_ok a) then ret None else
          rewind b ;; t <- add_deltas (S (Nat.modulo (Z.to_nat (a_num a)) npackets)) b (c_cur c) ;; ret (Some t)
        else ret (Some (c_curend c))) ;;
  match e with
  | None => ret tt
  | Some endnum =>
      a <- ask ;;
      (if (a_num a =? 0) || (a_num a =? 1) then ret tt else stop HExit) ;;
      when ((a_num a =? 0) && a_ok a) (emit (ESession (c_id c) (c_cur c) endnum)) ;;
      a2 <- ask ;;
      named <- (if negb (a_ok a2) then ret false else
        a3 <- ask ;;
        (if (a_num a3 =? 0) || (a_num a3 =? 1) then ret tt else stop HExit) ;;
        when ((a_num a3 =? 0) && a_ok a3) (emit (EWhole (c_id c) (c_cur c) endnum)) ;;
        ret ((a_num a3 =? 0) && a_ok a3)) ;;
      if printfiles && negb (((a_num a =? 0) && a_ok a) && named) then stop HGarbage else ret tt
  end.

(** powstream.c 825-868: ResetSession *)
Definition reset_session (p q : bool) : M unit :=
  c <- getc p ;;
  aval <- (if c_np c && c_stop c && c_cntrl c then emit (EOver (c_id c)) ;; a <- ask ;; ret (a_num a) else ret 0) ;;
  when (c_np c) (emit (EBroken (c_id c))) ;;
  write_session p aval true ;;
  modc p (set_fetch false) ;;
  close_cntrl p ;;
  modc p (fun c => set_fp false (set_testfp false (set_np false (set_stop false (set_started false (set_ptr false c)))))) ;;
  modc q (set_ptr false).
(** powstream.c 870-877: CloseSessions *)
Definition close_sessions : M unit := reset_session false true ;; reset_session true false.
End SigCheck.

(** powstream.c 902-930: sig_check.  Answer: signals caught meanwhile (sig_catch, 879-900).  The check
    within FetchSession makes the function call itself. *)
Fixpoint sig_check (depth : nat) : M bool :=
  match depth with
  | O => stop HDeep
  | S depth =>
      a <- ask ;;
      f <- get_flags ;;
      set_flags (fst f || a_hup a) (snd f || a_term a) ;;
      f <- get_flags ;;
      when (fst f || snd f) (close_sessions (sig_check depth)) ;;
      f <- get_flags ;;
      if snd f then stop HExit else
      if fst f then set_flags false (snd f) ;; ret true else ret false
  end.

Variable depth : nat.
Definition check : M bool := sig_check depth.
(** time.c: OWPGetTimeOfDay, a 64 bit number *)
Definition time_of (a : ans) : Z := u64 (a_time a).

(** powstream.c 979-984: the rest of a delay *)
Fixpoint sleep (fuel : nat) : M bool :=
  match fuel with
  | O => stop HNoMore
  | S fuel => a <- ask ;; if a_ok a then ret false else s <- check ;; if s then ret true else sleep fuel
  end.

(** powstream.c 1226-1249: the labels at the end of SetupSession *)
Definition fetch_clean (p : bool) : M bool := modc p (set_fetch false) ;; emit EFailed ;; ret true.
Definition sctx_clean (p : bool) : M bool := modc p (set_sctx None) ;; fetch_clean p.
Definition cntrl_clean (p : bool) : M bool := close_cntrl p ;; sctx_clean p.
Definition file_clean (p : bool) : M bool := modc p (fun c => set_fp false (set_testfp false c)) ;; cntrl_clean p.

(** powstream.c 1046-1224: SetupSession from the schedule context on.  Answers: context made; connection opened; time; files made; file
    unlinked; session requested (its identifier); session started; context reset.  OWPSessionRequest of no connection
    fails by a NULL pointer (owamp/capi.c 939-941), OWPStartSessions of no connection returns an error (1317-1321). *)
Definition setup_rest (p q : bool) : M bool :=
  c <- getc p ;;
  made <- (match c_sctx c with Some _ => ret true | None => a <- ask ;; when (a_ok a) (modc p (set_sctx (Some (c_sid c, 0%nat)))) ;; ret (a_ok a) end) ;;
  if negb made then fetch_clean p else
  a <- ask ;;
  if negb (a_ok a) then s <- check ;; (if s then ret true else sctx_clean p) else
  modc p (set_cntrl true) ;;
  s <- check ;; if s then ret true else
  a <- ask ;;
  if negb (a_ok a) then cntrl_clean p else
  first <- take_first ;;
  let now := OWPNum64Add (time_of a) (OWPULongToNum64 10) in
  let now := if first then OWPNum64Add now (OWPULongToNum64 delay_start) else now in
  c <- getc p ;;
  (if c_ptr c && negb (c_next c <? now) then ret tt else modc p (fun c => set_ptr true (set_next now c))) ;;
  a <- ask ;;
  if negb (a_ok a) then cntrl_clean p else
  modc p (fun c => set_fp true (set_testfp true c)) ;;
  a <- ask ;;
  if negb (a_ok a) then file_clean p else
  s <- check ;; if s then ret true else
  c <- getc p ;;
  let start := c_next c in
  if negb (c_cntrl c) then stop HCrash else
  a <- ask ;;
  if negb (a_ok a) then file_clean p else
  modc p (set_sid (a_num a)) ;;
  s <- check ;; if s then ret true else
  a <- ask ;;
  c <- getc p ;;
  if negb (a_ok a) || negb (c_cntrl c) then cntrl_clean p else
  id <- new_session ;;
  emit (EStart id (c_sid c) start now) ;;
  modc p (fun c => set_id id (set_stop true (set_started false c))) ;;
  s <- check ;; if s then ret true else
  a <- ask ;;
  if negb (a_ok a) then cntrl_clean p else
  modc p (fun c => set_np true (set_sctx (Some (c_sid c, 0%nat)) c)) ;;
  c <- getc p ;;
  e <- add_deltas npackets p (c_next c) ;;
  modc p (set_end e) ;;
  rewind p ;;
  modc q (fun c => set_ptr true (set_next e c)) ;;
  ret false.

(** powstream.c 932-1250: SetupSession.  Answers: time, end of the delay; time; time; then as above.  The result is
    not 0.  sig_check in line 1054 follows the failure of OWPControlOpenInterface *)
Definition setup_session (p q : bool) (limit : option Z) : M bool :=
  c <- getc p ;;
  if c_np c then ret false else
  modc p (set_fetch false) ;;
  close_cntrl p ;;
  modc p (fun c => set_fp false (set_testfp false (set_stop false (set_started false c)))) ;;
  s <- (if (0 <? retry) && (0 <? c_prev c) then
          a <- ask ;;
          if negb (a_ok a) then stop HExit else
          if time_of a <? OWPNum64Add (c_prev c) (OWPULongToNum64 retry) then n <- remaining ;; sleep n else ret false
        else ret false) ;;
  if s then ret true else
  a <- ask ;;
  if negb (a_ok a) then stop HExit else
  if match limit with Some l => l <? time_of a | None => false end then
    c <- getc p ;;
    modc q (fun d => if c_ptr c then set_ptr true (set_next (c_next c) d) else set_ptr false d) ;;
    ret false
  else
  a <- ask ;;
  modc p (set_prev (time_of a)) ;;
  s <- check ;; if s then ret true else
  setup_rest p q.

(** what to do next: goto NextConnection, leave the loop of summaries, go on *)
Inductive ctl := CNext | CBreak (aval : Z) | CGo (aval : Z).

(** powstream.c 1869-1889: no summaries; OWPStopSessionsWait without a time limit (answer: -1, 2, or the session is over).
    OWPStopSessionsWait of no connection fails by a NULL pointer (owamp/api.c 1898) *)
Fixpoint wait_again (fuel : nat) (p : bool) : M ctl :=
  match fuel with
  | O => stop HNoMore
  | S fuel =>
      c <- getc p ;;
      if negb (c_cntrl c) then stop HCrash else
      a <- ask ;;
      if a_num a <? 0 then
        emit (EOver (c_id c)) ;; modc p (set_stop false) ;; close_sessions check ;; ret CNext
      else if a_num a =? 2 then
        s <- check ;; if s then ret CNext else wait_again fuel p
      else
        emit (EOver (c_id c)) ;; modc p (set_stop false) ;; a2 <- ask ;; ret (CGo (a_num a2))
  end.

(** powstream.c 1955-2000: wait for the end of the range of packets.  Answers: the result of
    OWPStopSessionsWait, and the acceptance value if it is at most 0; OWPSessionsActive *)
Fixpoint wait_range (fuel : nat) (p : bool) (aval : Z) : M ctl :=
  match fuel with
  | O => stop HNoMore
  | S fuel =>
      c <- getc p ;;
      if negb (c_stop c) then ret (CGo aval) else
      if negb (c_cntrl c) then stop HCrash else
      a <- ask ;;
      if a_num a <? 0 then
        emit (EOver (c_id c)) ;; modc p (set_cntrl false) ;; a2 <- ask ;; ret (CBreak (a_num a2))
      else if a_num a =? 0 then
        emit (EOver (c_id c)) ;; modc p (set_stop false) ;; a2 <- ask ;;
        ret (if negb (a_num a2 =? 0) then CBreak (a_num a2) else CGo 0)
      else if a_num a =? 2 then
        s <- check ;; if s then ret CNext else
        a2 <- ask ;; if a_ok a2 then wait_range fuel p 0 else ret (CGo 0)
      else ret (CGo 0)
  end.

(** powstream.c 2106-2145: the file for a summary is created (answer 0: yes; 1: interrupted; 2: lack of resources) *)
Fixpoint create (fuel : nat) : M (option bool) :=
  match fuel with
  | O => stop HNoMore
  | S fuel =>
      a <- ask ;;
      if a_num a =? 0 then ret (Some true) else
      if a_num a =? 1 then s <- check ;; (if s then ret None else create fuel) else
      if a_num a =? 2 then ret (Some false) else stop HExit
  end.

(** powstream.c 2002-2188: one summary, after the wait.  Answers: file positioned and truncated, records fetched (with -t);
    header read, summary made (number of packets sent); file created; written and linked *)
Definition summary (p : bool) (sum : nat) (from upto : Z) (aval : Z) : M ctl :=
  modc p (set_started true) ;;
  c <- getc p ;;
  fetched <- (if sender then
      if negb (c_testfp c) then stop HCrash else
      a <- ask ;; if negb (a_ok a) then ret None else b <- fetch_session check p ;; ret (Some b)
    else ret (Some true)) ;;
  match fetched with
  | None => ret (CBreak aval)
  | Some false => emit (EMissed (c_id c)) ;; ret (CGo aval)
  | Some true =>
      c <- getc p ;;
      if negb (c_fp c) then stop HCrash else
      a <- ask ;;
      if negb (a_ok a) then ret (CBreak aval) else
      if negb (c_stop c) && (a_num a =? 0) then ret (CBreak aval) else
      n <- remaining ;;
      o <- create n ;;
      match o with
      | None => ret CNext
      | Some made =>
          a <- (if made then ask else ret (mkAns false 0 0 false false)) ;;
          emit (if a_ok a then ESum (c_id c) (Z.of_nat (N * sum)) (Z.of_nat (N * S sum)) from upto else EMissed (c_id c)) ;;
          c <- getc p ;;
          ret (if c_cntrl c then CGo aval else CBreak aval)
      end
  end.

(** powstream.c 1907-2194: the loop over the summaries; [more]: those still to be made.  Result: None: goto NextConnection;
    otherwise acceptance value, and whether the loop ran to its end *)
Fixpoint summaries (more : nat) (p q : bool) (sum : nat) (last : Z) (aval : Z) : M (option (Z * bool)) :=
  match more with
  | O => ret (Some (aval, true))
  | S more =>
      s <- check ;; if s then ret None else
      c <- getc p ;;
      let from := OWPNum64Add (c_cur c) last in
      last <- add_deltas N p last ;;
      let upto := OWPNum64Add (c_cur c) last in
      s <- setup_session q p (Some (OWPNum64Add upto (OWPNum64Add loss (OWPULongToNum64 iotime)))) ;;
      if s then ret None else
      n <- remaining ;;
      w <- wait_range n p aval ;;
      match w with
      | CNext => ret None
      | CBreak aval => ret (Some (aval, false))
      | CGo aval =>
          r <- summary p sum from upto aval ;;
          match r with
          | CNext => ret None
          | CBreak aval => ret (Some (aval, false))
          | CGo aval => summaries more p q (S sum) last aval
          end
      end
  end.

(** powstream.c 2196-2226: after the summaries; a session whose loop was left early is one that was abandoned *)
Definition finish (p q : bool) (aval : Z) (complete : bool) : M unit :=
  c <- getc p ;;
  when (negb complete) (emit (EBroken (c_id c))) ;;
  aval <- (if c_cntrl c && c_stop c then
      emit (EOver (c_id c)) ;; a <- ask ;; when (negb (a_ok a)) (modc p (set_cntrl false)) ;; ret (a_num a)
    else ret aval) ;;
  write_session check p aval false ;;
  modc p (fun c => set_np false (set_fp false (set_testfp false c))) ;;
  when (negb complete) (reset_session check q p).

(** powstream.c 1808-2227: one pass through the main loop *)
Definition pass : M unit :=
  _ <- check ;;
  p <- take_turn ;;
  let q := negb p in
  c <- getc p ;;
  if negb (c_np c) then _ <- setup_session q p None ;; ret tt else
  modc p (fun c => set_cur (c_next c) (set_curend (c_end c) c)) ;;
  r <- (match K with
        | O => s <- setup_session q p None ;;
               if s then ret None else
               modc p (set_started true) ;;
               n <- remaining ;;
               w <- wait_again n p ;;
               match w with CNext => ret None | CBreak aval | CGo aval => ret (Some (aval, true)) end
        | _ => summaries K p q 0 0 0
        end) ;;
  match r with
  | None => ret tt
  | Some (aval, complete) => finish p q aval complete
  end.
(** powstream.c 1800-2228: the main loop, a number of passes *)
Fixpoint passes (n : nat) : M unit := match n with O => ret tt | S n => pass ;; passes n end.
End Powstream.

(** powstream.c 1691-1694: memset of pcntrl; nothing has happened yet *)
Definition conn0 : conn := mkConn false false None 0 0 false 0 0 0 0 0 false false false false false.
Definition world0 (env : list ans) : world := mkWorld conn0 conn0 false true false false 1 env [].
