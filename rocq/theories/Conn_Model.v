(** Model of the process of the daemon that serves one control connection: the loop over the requests (owampd/owampd.c 706-865), with the
    flags of the signal handler (134-166) and the timer.

    The library functions are seen from outside: OWPReadRequestType (owamp/protocol.c 455-527) reads one block and makes the connection
    invalid if that fails, OWPProcess... read the rest of a request and answer it, OWPStopSessionsWait (owamp/api.c 1879-2123) and
    OWPStopSessions (1690-1877) are described in detail in Wait_Model and Stop_Model.
    Not modelled: failures of setitimer; NWPControlAccept, which runs with the same timer before the loop. *)
From Coq Require Import ZArith List Bool.
From Verif Require Import Base.
Import ListNotations.
Open Scope Z_scope.

(** what a library function returns: at least OWPErrOK, OWPErrWARNING, less *)
Inductive severity := Fine | Warning | Fatal.
(** a request: Start-Sessions or any other that the daemon processes *)
Inductive request := Start | Other.
(** OWPStopSessionsWait returns 2, or 0 or less *)
Inductive wstate := Signalled | Over.

(** what the process does next *)
Inductive point :=
| Top                      (* 717: clear the flags *)
| Arm                      (* 718-722: start the timer *)
| Enter                    (* 724: enter OWPReadRequestType *)
| Reading                  (* 724: wait for a request *)
| Processing (r : request) (* 730, 734, 739, 810: read the rest of the request and answer it *)
| Started                  (* 749 *)
| Disarm                   (* 750-754: stop the timer *)
| Clear                    (* 758-759 *)
| WaitEnter                (* 760: enter OWPStopSessionsWait, api.c 1902-1942 *)
| Waiting                  (* 760: wait for the sessions or a message, api.c 1971 *)
| Trading                  (* 760: read and write StopSessions messages, api.c 1931, 2025-2123 *)
| Waited (w : wstate) (e : severity)  (* 762-777 *)
| ToStop                   (* 786 *)
| ToStopArm                (* 787-791: start the timer *)
| Stopping                 (* 792: OWPStopSessions *)
| Next (e : severity)      (* 833-839 *)
| Done.                    (* 842: close the connection and exit *)

(** [valid]: the state of the connection is not _OWPStateInvalid; [armed]: the timer runs; [refusals]: how many Accept-Session messages were sent in answer to something that is no request (TWAMP) *)
Record state := State { pt : point; exit : bool; int : bool; alrm : bool; intr : bool; armed : bool; valid : bool; refusals : nat }.

Definition init : state := State Top false false false false false true 0.

Definition at_ (s : state) (p : point) : state := State p (exit s) (int s) (alrm s) (intr s) (armed s) (valid s) (refusals s).

Inductive event :=
| Go                          (* a step of the process that depends on nothing else *)
| Term | Int | Chld | Alarm   (* signals: SIGTERM and the like, SIGINT, the end of a process of a session, the timer *)
| Message (r : request)       (* the client sends a request *)
| Bad                         (* the client sends something else *)
| Close                       (* the client closes the connection *)
| Input                       (* the client sends or closes while the process waits for sessions *)
| Answered (e : severity)     (* the client has sent all that the library function needs; it returns *)
| Broken                      (* a signal interrupts the library function while it waits for the client; it fails *)
| Complete                    (* OWPStopSessionsWait finds all sessions complete, or one that failed *)
| Active.                     (* OWPStopSessionsWait finds that there is something to wait for *)

(** 814-831: an invalid connection, or a message that is no request: OWPUnexpectedRequestType (sapi.c 1501-1528) *)
Definition unexpected (twamp : bool) (s : state) : state :=
  if twamp then State (Next Fine) (exit s) (int s) (alrm s) (intr s) (armed s) true (S (refusals s))
  else State (Next Fatal) (exit s) (int s) (alrm s) (intr s) (armed s) false (refusals s).

(** the effect of a signal on a system call that sleeps: read in OWPReadRequestType makes the connection invalid and returns OWPReqSockIntr (protocol.c 478-484);
    poll in OWPStopSessionsWait makes it return 2 (api.c 1973-1982) *)
Definition woken (s : state) : state :=
  match pt s with
  | Reading => State (Next Fine) (exit s) (int s) (alrm s) (intr s) (armed s) false (refusals s)
  | Waiting => at_ s (Waited Signalled Fine)
  | _ => s
  end.

(** the process with the option controltimeout; [None]: the event cannot happen *)
Definition step (twamp : bool) (timeout : Z) (s : state) (e : event) : option state :=
  match e, pt s with
  | _, Done => None
  | Term, _ => Some (woken (State (pt s) true (int s) (alrm s) true (armed s) (valid s) (refusals s)))
  | Int, _ => Some (woken (State (pt s) true true (alrm s) true (armed s) (valid s) (refusals s)))
  | Chld, _ => Some (woken (State (pt s) (exit s) (int s) (alrm s) true (armed s) (valid s) (refusals s)))
  | Alarm, _ => if armed s then Some (woken (State (pt s) (exit s) (int s) true true false (valid s) (refusals s))) else None
  | Go, Top => Some (State Arm (exit s) (int s) false false (armed s) (valid s) (refusals s))
  | Go, Arm => Some (State Enter (exit s) (int s) (alrm s) (intr s) (negb (timeout =? 0)) (valid s) (refusals s))
  | Go, Enter => Some (if valid s then at_ s Reading else unexpected twamp s)
  | Message r, Reading => Some (at_ s (Processing r))
  | Bad, Reading => Some (unexpected twamp s)
  | Close, Reading => Some (at_ s (Next Fatal))
  | Answered e, Processing Start => Some (at_ s (match e with Fine => Started | _ => Next e end))
  | Answered e, Processing Other => Some (at_ s (Next e))
  | Broken, Processing _ => if intr s then Some (at_ s (Next Fatal)) else None
  | Go, Started => Some (State Disarm (exit s) (int s) (alrm s) false (armed s) (valid s) (refusals s))
  | Go, Disarm => Some (State Clear (exit s) (int s) (alrm s) (intr s) false (valid s) (refusals s))
  | Go, Clear => Some (State WaitEnter (exit s) (int s) (alrm s) false (armed s) (valid s) (refusals s))
  | Complete, WaitEnter => Some (at_ s (if twamp then Waited Over Fine else Trading))
  | Active, WaitEnter => Some (at_ s (if intr s then Waited Signalled Fine else Waiting))
  | Input, Waiting => Some (at_ s Trading)
  | Answered e, Trading => Some (at_ s (Waited Over e))
  | Broken, Trading => if intr s then Some (at_ s (Waited Over Fatal)) else None
  | Go, Waited w e =>
      Some (at_ s (if int s then Done
                   else if exit s then match w with Signalled => if twamp then Next Fine else ToStop | Over => Done end
                   else match w with Over => Next e | Signalled => Clear end))
  | Go, ToStop => Some (State ToStopArm (exit s) (int s) (alrm s) false (armed s) (valid s) (refusals s))
  | Go, ToStopArm => Some (State Stopping (exit s) (int s) (alrm s) (intr s) (negb (timeout =? 0)) (valid s) (refusals s))
  | Answered e, Stopping => Some (at_ s (Next e))
  | Broken, Stopping => if intr s then Some (at_ s (Next Fatal)) else None
  | Go, Next e => Some (at_ s (match e with Fatal => Done | _ => if exit s || alrm s then Done else Top end))
  | _, _ => None
  end.

Fixpoint run (twamp : bool) (timeout : Z) (s : state) (l : list event) : option state :=
  match l with [] => Some s | e :: r => match step twamp timeout s e with Some s' => run twamp timeout s' r | None => None end end.
