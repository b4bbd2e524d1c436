(** Model of the part of a control connection that waits for test sessions: the processes of the endpoints
    (owamp/endpoint.c 4124-4243), OWPSessionStatus, OWPSessionsActive and OWPStopSessionsWait up to the moment at which it
    stops the sessions or reads a message (owamp/api.c 574-632, 1879-2047; the rest is in Stop_Model.v).

    Happenings (a process ends, a signal, input, the clock moves) come between the system calls ([w_between], one list per call)
    or while poll() sleeps ([w_during]); both are arbitrary.
    Not modelled: poll() failing for other reasons than EINTR, or reporting only POLLNVAL; a process that ignores SIGCHLD. *)
From Coq Require Import ZArith List Bool.
From Verif Require Import Base Arith_Model.
Import ListNotations.
Open Scope Z_scope.

(** how a process is: running, ended by exit(), ended by a signal (waitpid: WIFEXITED, WEXITSTATUS) *)
Inductive kid := Alive | Exited (code : Z) | Killed.

(** [Interrupt] is a signal whose handler sets the flag given as retn_on_intr, [Other] one whose handler does not;
    the end of a process comes with SIGCHLD (endpoint.c 3960-3990 make sure that there is a handler) *)
Inductive happening := Ends (i : nat) (how : kid) | Interrupt | Other | Input | Clock (t : Z).

Record world := mkW { w_kids : nat -> kid; w_reaped : nat -> bool; w_flag : bool; w_input : bool; w_now : Z; w_gtod : bool;
  w_between : list (list happening); w_during : list happening }.

Definition set_kids k w := mkW k (w_reaped w) (w_flag w) (w_input w) (w_now w) (w_gtod w) (w_between w) (w_during w).
Definition set_reaped r w := mkW (w_kids w) r (w_flag w) (w_input w) (w_now w) (w_gtod w) (w_between w) (w_during w).
Definition set_flag w := mkW (w_kids w) (w_reaped w) true (w_input w) (w_now w) (w_gtod w) (w_between w) (w_during w).
Definition set_input w := mkW (w_kids w) (w_reaped w) (w_flag w) true (w_now w) (w_gtod w) (w_between w) (w_during w).
Definition set_now t w := mkW (w_kids w) (w_reaped w) (w_flag w) (w_input w) t (w_gtod w) (w_between w) (w_during w).
Definition set_between b w := mkW (w_kids w) (w_reaped w) (w_flag w) (w_input w) (w_now w) (w_gtod w) b (w_during w).
Definition set_during d w := mkW (w_kids w) (w_reaped w) (w_flag w) (w_input w) (w_now w) (w_gtod w) (w_between w) d.

Definition put_nat {A} (i : nat) (a : A) (f : nat -> A) : nat -> A := fun j => if Nat.eqb j i then a else f j.

(** the effect of a happening.  A process ends once; the clock does not go back while a process waits *)
Definition happen (e : happening) (w : world) : world :=
  match e with
  | Ends i how => match w_kids w i with Alive => set_kids (put_nat i how (w_kids w)) w | _ => w end
  | Interrupt => set_flag w
  | Other => w
  | Input => set_input w
  | Clock t => set_now (Z.max t (w_now w)) w
  end.

(** what happens before the next system call *)
Definition tick (w : world) : world :=
  match w_between w with
  | [] => w
  | es :: r => fold_left (fun w e => happen e w) es (set_between r w)
  end.

(** owampP.h: the fields of OWPEndpoint and OWPTestSession that matter here; acceptval is OWP_CNTRL_INVALID (-1) as long as the
    end of the process is not known (endpoint.c 84-90) *)
Record endpoint := mkE { e_accept : Z; e_child : nat }.
Record session := mkSess { s_sid : Z; s_end : option endpoint }.

Definition CNTRL_INVALID : Z := -1.
Definition CNTRL_ACCEPT : Z := 0.
Definition CNTRL_REJECT : Z := 1.
Definition CNTRL_FAILURE : Z := 2.
Definition ErrFATAL : Z := 3.
Definition ErrOK : Z := 8.

(** endpoint.c 4141-4185: _OWPEndpointStatus with WNOHANG.  waitpid() of a child that was waited for before fails *)
Definition endpoint_status (e : endpoint) (aval : Z) (w : world) : endpoint * Z * world :=
  let w := tick w in
  let '(e, w) :=
    if e_accept e <? 0 then
      if w_reaped w (e_child e) then (mkE CNTRL_FAILURE (e_child e), w) else
      match w_kids w (e_child e) with
      | Alive => (e, w)
      | Exited c => (mkE (c mod 256) (e_child e), set_reaped (put_nat (e_child e) true (w_reaped w)) w)
      | Killed => (mkE CNTRL_FAILURE (e_child e), set_reaped (put_nat (e_child e) true (w_reaped w)) w)
      end
    else (e, w) in
  (e, if aval =? CNTRL_ACCEPT then e_accept e else aval, w).

(** api.c 574-600: OWPSessionStatus of the session [sid]; [aval]: what the caller's variable contains *)
Fixpoint session_status (tests : list session) (sid aval : Z) (w : world) : bool * Z * list session * world :=
  match tests with
  | [] => (false, aval, [], w)
  | s :: r =>
    if s_sid s =? sid then
      match s_end s with
      | Some e => let '(e, aval, w) := endpoint_status e aval w in (true, aval, mkSess (s_sid s) (Some e) :: r, w)
      | None => (false, aval, tests, w)
      end
    else let '(b, a, r, w) := session_status r sid aval w in (b, a, s :: r, w)
  end.

(** api.c 602-632: OWPSessionsActive; the number of sessions and [*aval] *)
Fixpoint active_from (tests : list session) (n raval : Z) (w : world) : Z * Z * list session * world :=
  match tests with
  | [] => (n, raval, [], w)
  | s :: r =>
    match s_end s with
    | None => let '(n, a, r, w) := active_from r n raval w in (n, a, s :: r, w)
    | Some e =>
      let '(e, laval, w) := endpoint_status e CNTRL_ACCEPT w in
      let '(n, a, r, w) :=
        if laval <? 0 then active_from r (n + 1) raval w else active_from r n (Z.max laval raval) w in
      (n, a, mkSess (s_sid s) (Some e) :: r, w)
    end
  end.
Definition sessions_active (tests : list session) (w : world) := active_from tests 0 0 w.

(** sapi.c 936-945, capi.c 1344-1352 and 1365-1374, endpoint.c 4124-4139: starting the sessions succeeds if every endpoint can be
    started (kill() of a child that was not waited for succeeds) *)
Definition start_sessions (tests : list session) : bool :=
  forallb (fun s => match s_end s with Some e => e_accept e <? 0 | None => true end) tests.

(** conversion to int of a value of type long *)
Definition to_int (x : Z) : Z := (x + 2147483648) mod 4294967296 - 2147483648.

(** api.c 1954-1962: the timeout for poll() in milliseconds.  time.h: timespecclear sets 0 s *)
Definition timeout_ms (now wake : Z) : Z :=
  let rel := if now <? wake then OWPNum64ToTimespec (OWPNum64Sub wake now) else (0, 0) in
  to_int (fst rel * 1000 + snd rel / 1000000).

Inductive polled := PReady | PTimeout | PIntr.

(** poll(2): sleeps until there is input, a signal, or the time is over; it sleeps forever if nothing more happens *)
Fixpoint sleep (until : option Z) (es : list happening) (w : world) : option polled * world :=
  match es with
  | [] => (None, set_during [] w)
  | e :: r =>
    let w' := happen e w in
    match e with
    | Input => (Some PReady, set_during r w')
    | Interrupt | Other => (Some PIntr, set_during r w')
    | Ends i _ => match w_kids w i with Alive => (Some PIntr, set_during r w') | _ => sleep until r w' end
    | Clock _ => match until with
                 | Some u => if u <=? w_now w' * 1000 then (Some PTimeout, set_during r w') else sleep until r w'
                 | None => sleep until r w'
                 end
    end
  end.

Definition poll (timeout : Z) (w : world) : option polled * world :=
  let w := tick w in
  if w_input w then (Some PReady, w) else
  if timeout =? 0 then (Some PTimeout, w) else
  sleep (if timeout <? 0 then None else Some (w_now w * 1000 + timeout * M32)) (w_during w) w.

(** how the modelled part ends: the function returns (with *err_ret), it calls OWPStopSessions and then returns 0 with its result in
    *err_ret, it goes on with reading a message (Stop_Model.stop_wait), or it sleeps forever *)
Inductive result := Returns (rc err : Z) | Stops | Reads | Sleeps | OutOfFuel.

Record control := mkC { c_sock : bool; c_twoway : bool; c_server : bool }.

(** api.c 1970-2021: from the label AGAIN; [intr]: the caller gave a flag *)
Fixpoint again (fuel : nat) (c : control) (wake : option Z) (intr : bool) (timeout aval : Z) (tests : list session) (w : world)
  : result * Z * list session * world :=
  match fuel with O => (OutOfFuel, aval, tests, w) | S fuel =>
  match poll timeout w with
  | (None, w) => (Sleeps, aval, tests, w)
  | (Some PTimeout, w) => (Returns 1 ErrOK, aval, tests, w)
  | (Some PReady, w) => (Reads, aval, tests, w)
  | (Some PIntr, w) =>
    if (match wake with Some _ => true | None => false end) || (intr && w_flag w) then (Returns 2 ErrOK, aval, tests, w) else
    let '(n, aval, tests, w) := sessions_active tests w in
    if negb (n =? 0) && (aval =? 0) then again fuel c wake intr timeout aval tests w else
    if c_twoway c && c_server c then
      let '(n, aval, tests, w) := sessions_active tests w in
      if (n =? 0) && negb (aval =? 0) then (Returns 0 ErrOK, aval, tests, w)
      else again fuel c wake intr timeout aval tests w
    else (Stops, aval, tests, w)
  end end.

(** api.c 1879-1968: OWPStopSessionsWait; a call with a NULL connection is left out *)
Definition stop_sessions_wait (c : control) (wake : option Z) (intr : bool) (tests : list session) (w : world)
  : result * Z * list session * world :=
  if negb (c_sock c) then (Returns (-1) ErrFATAL, CNTRL_ACCEPT, tests, w) else
  let '(n, aval, tests, w) := sessions_active tests w in
  if c_twoway c && c_server c && (n =? 0) && negb (aval =? 0) then (Returns 0 ErrOK, aval, tests, w) else
  if negb (c_twoway c && c_server c) && ((n =? 0) || negb (aval =? 0)) then (Stops, aval, tests, w) else
  if intr && w_flag w then (Returns 2 ErrOK, aval, tests, w) else
  match wake with
  | None => again (S (length (w_during w))) c wake intr (-1) aval tests w
  | Some t =>
    let w := tick w in
    if negb (w_gtod w) then (Returns (-1) ErrOK, aval, tests, w) else
    again (S (length (w_during w))) c wake intr (timeout_ms (w_now w) t) aval tests w
  end.

(** ** The process of an endpoint until its session begins *)

(** signals that were sent to the process and not handled yet are blocked until it calls sigsuspend (endpoint.c 4079-4084) *)
Inductive phase := Waiting | Running | Over (code : Z).
Record process := mkP { p_usr1 : bool; p_usr2 : bool; p_int : bool; p_phase : phase }.
Definition forked : process := mkP false false false Waiting.

(** what happens to it: _OWPEndpointStart (endpoint.c 4124-4139: SIGUSR1), _OWPEndpointStop (endpoint.c 4207-4219: SIGUSR2 if all
    is well and else SIGINT), it gets the processor, or its session comes to an end with an acceptance value *)
Inductive step := Start | Stop | Cancel | Run | Finish (code : Z).

Definition move (s : step) (p : process) : process :=
  match s, p_phase p with
  | _, Over _ => p
  | Start, _ => mkP true (p_usr2 p) (p_int p) (p_phase p)
  | Stop, _ => mkP (p_usr1 p) true (p_int p) (p_phase p)
  | Cancel, _ => mkP (p_usr1 p) (p_usr2 p) true (p_phase p)
  | Run, Waiting =>
    (* endpoint.c 4083-4113 *)
    if p_int p || p_usr2 p then mkP (p_usr1 p) (p_usr2 p) (p_int p) (Over CNTRL_REJECT) else
    if p_usr1 p then mkP (p_usr1 p) (p_usr2 p) (p_int p) Running else p
  | Run, Running => p
  | Finish c, Running => mkP (p_usr1 p) (p_usr2 p) (p_int p) (Over c)
  | Finish _, Waiting => p
  end.
Definition moves (l : list step) (p : process) : process := fold_left (fun p s => move s p) l p.
