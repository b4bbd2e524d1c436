(** Model of the main process of the daemon (owampd/owampd.c): its loop (1892-1987), NewConnection up to the fork (489-633), AllocChldState, FreeChldState,
    ReapChildren (178-346), CleanPipes (431-448) and the signal handler (134-166).  The processes that serve connections only run, ask and end (that the end of a process makes its descriptor readable, too, is left out); what they send
    to the main process and what it answers is the subject of Policy_Model. *)
From Coq Require Import ZArith List Bool.
From Verif Require Import Base Config_Model.
Import ListNotations.
Open Scope Z_scope.

(** 168-176: an entry of pidtable and fdtable *)
Record kid := Kid { k_pid : Z; k_fd : Z }.

(** a process forked by the main process: it serves a connection, was sent SIGKILL, or has ended and waits to be waited for *)
Inductive pstate := Runs | Doomed | Exited.

(** where ReapChildren was called *)
Inductive after := ToTop | ToAccept | ToLimit | ToLeft.

(** what the main process does next *)
Inductive point :=
| Top                       (* 1895: test of owpd_exit *)
| Enter                     (* 1899: about to call poll *)
| Polling                   (* 1899: in poll *)
| Woken                     (* 1904-1911: poll was interrupted *)
| Accepting                 (* 510: in accept *)
| AcceptIntr                (* 513-526: accept was interrupted *)
| Limit                     (* 542: first test of the limit *)
| Limit2                    (* 550: second test *)
| Refusing                  (* 551-560 *)
| Forking                   (* 563-569: socketpair, fork *)
| Adding (pid fd : Z)       (* 593: AllocChldState *)
| Growing (fd : Z)          (* 603: realloc of the array for poll *)
| Served                    (* 1930: test of owpd_exit *)
| Reap (a : after)          (* 327: test of owpd_chld *)
| Wait (a : after)          (* 331: waitpid *)
| Clear (a : after)         (* 344: owpd_chld = 0 *)
| Leaving                   (* 1937-1961 *)
| Left                      (* 1968: test of owpd_alrm and pidtable *)
| LeftTest                  (* 1969: test of owpd_chld *)
| Suspending                (* 1970: about to call sigsuspend *)
| Suspended                 (* 1970: in sigsuspend *)
| Finish                    (* 1978-1986 *)
| Ended
| Crashed.

(** [polled]: the descriptors in the array for poll after the listening one; [asking]: the descriptors with something to read; [armed]: alarm is set *)
Record state := State {
  pt : point; kids : list kid; polled : list Z; sessions : Z; chld : bool; exit : bool; alrm : bool; armed : bool;
  procs : list (Z * pstate); asking : list Z }.

Definition init : state := State Top [] [] 0 false false false false [] [].

Definition at_ (s : state) (p : point) : state := State p (kids s) (polled s) (sessions s) (chld s) (exit s) (alrm s) (armed s) (procs s) (asking s).

Inductive event :=
| Go                              (* a step of the main process that depends on nothing else *)
| Exits (pid : Z)                 (* a process ends; SIGCHLD *)
| Term                            (* SIGTERM, SIGHUP, SIGINT, SIGUSR1 or SIGUSR2 *)
| Alarm                           (* SIGALRM *)
| Asks (fd : Z)                   (* a process sends a message *)
| Ready (conn : bool)             (* poll returns: there is a connection or not *)
| Connected | Aborted | Eintr     (* accept returns *)
| Forks (pid fd : Z) | NoFork     (* socketpair and fork; one of them fails *)
| Alloc (ok : bool)               (* AllocChldState *)
| Grow (ok : bool)                (* realloc in NewConnection *)
| Reaped (pid : Z) (shrink : bool) (* waitpid returns a process; the outcome of realloc in FreeChldState *)
| NoChild.                        (* waitpid returns none *)

(** what a signal does to a system call that sleeps *)
Definition woken (p : point) : point := match p with Polling => Woken | Suspended => Reap ToLeft | _ => p end.

Definition back (a : after) : point := match a with ToTop => Top | ToAccept => Accepting | ToLimit => Limit2 | ToLeft => Left end.

Definition is_exited (p : Z * pstate) : bool := match snd p with Exited => true | _ => false end.
Definition ends (pid : Z) (p : Z * pstate) : Z * pstate := if fst p =? pid then (fst p, Exited) else p.
Definition dooms (pid : Z) (p : Z * pstate) : Z * pstate := match snd p with Runs => if fst p =? pid then (fst p, Doomed) else p | _ => p end.
Definition dooms_all (p : Z * pstate) : Z * pstate := match snd p with Runs => (fst p, Doomed) | _ => p end.

(** I2HashFetch, I2HashDelete of pidtable *)
Fixpoint find_kid (l : list kid) (pid : Z) : option kid :=
  match l with [] => None | k :: r => if k_pid k =? pid then Some k else find_kid r pid end.
Fixpoint remove_kid (l : list kid) (pid : Z) : list kid :=
  match l with [] => [] | k :: r => if k_pid k =? pid then r else k :: remove_kid r pid end.
Fixpoint remove_fd (l : list Z) (fd : Z) : list Z :=
  match l with [] => [] | f :: r => if f =? fd then r else f :: remove_fd r fd end.

(** 229-309: FreeChldState.  If the descriptor is not in the array (268-273) or realloc fails (291-297) the process stays in the tables *)
Definition free_kid (s : state) (k : kid) (shrink : bool) : state :=
  let gone polled := State (pt s) (remove_kid (kids s) (k_pid k)) polled (u32 (sessions s - 1)) (chld s) (exit s) (alrm s) (armed s) (procs s) (filter (fun f => negb (f =? k_fd k)) (asking s)) in
  let same polled := State (pt s) (kids s) polled (sessions s) (chld s) (exit s) (alrm s) (armed s) (procs s) (filter (fun f => negb (f =? k_fd k)) (asking s)) in
  if k_fd k <? 0 then gone (polled s) else
  if existsb (fun f => f =? k_fd k) (polled s) then
    if shrink then gone (remove_fd (polled s) (k_fd k)) else same (remove_fd (polled s) (k_fd k) ++ [last (polled s) 0])
  else same (polled s).

(** 354-448: CleanPipes, CheckFD: the messages that are left.  The order of the hash table is that of the list *)
Definition among (f : Z) (l : list Z) : bool := existsb (fun x => x =? f) l.
Fixpoint clean (ks : list kid) (polled asking : list Z) (nready : nat) : list Z :=
  match ks with
  | [] => asking
  | k :: r => if among (k_fd k) polled && among (k_fd k) asking then
                let rest := filter (fun f => negb (f =? k_fd k)) asking in
                match nready with S (S n) => clean r polled rest (S n) | _ => rest end
              else clean r polled asking nready
  end.
(** 1899: what poll returns when there is no connection *)
Definition nfound (polled asking : list Z) : nat := length (filter (fun f => among f asking) polled).

Definition with_procs (s : state) (l : list (Z * pstate)) : state := State (pt s) (kids s) (polled s) (sessions s) (chld s) (exit s) (alrm s) (armed s) l (asking s).

(** the daemon with the options maxcontrolsessions and dieby; [None]: the event cannot happen *)
Definition step (max dieby : Z) (s : state) (e : event) : option state :=
  match e, pt s with
  | Exits pid, _ =>
      if existsb (fun p => (fst p =? pid) && negb (is_exited p)) (procs s)
      then Some (State (woken (pt s)) (kids s) (polled s) (sessions s) true (exit s) (alrm s) (armed s) (map (ends pid) (procs s)) (asking s)) else None
  | Term, _ => Some (State (woken (pt s)) (kids s) (polled s) (sessions s) (chld s) true (alrm s) (armed s) (procs s) (asking s))
  | Alarm, _ => if armed s then Some (State (woken (pt s)) (kids s) (polled s) (sessions s) (chld s) (exit s) true false (procs s) (asking s)) else None
  | Asks fd, _ => if existsb (fun k => k_fd k =? fd) (kids s) && (0 <=? fd)
      then Some (State (pt s) (kids s) (polled s) (sessions s) (chld s) (exit s) (alrm s) (armed s) (procs s) (fd :: asking s)) else None
  | Go, Top => Some (at_ s (if exit s then Leaving else Enter))
  | Go, Enter => Some (at_ s Polling)
  | Ready true, Polling => Some (at_ s Accepting)
  | Ready false, Polling => match nfound (polled s) (asking s) with O => None | n =>
      Some (State Served (kids s) (polled s) (sessions s) (chld s) (exit s) (alrm s) (armed s) (procs s) (clean (kids s) (polled s) (asking s) n)) end
  | Go, Woken => Some (at_ s (if exit s then Leaving else Reap ToTop))
  | Connected, Accepting => Some (at_ s Limit)
  | Aborted, Accepting => Some (at_ s Served)
  | Eintr, Accepting => Some (at_ s AcceptIntr)
  | Go, AcceptIntr => Some (at_ s (if exit s then Served else Reap ToAccept))
  | Go, Limit => Some (at_ s (if too_many max (sessions s) then Reap ToLimit else Forking))
  | Go, Limit2 => Some (at_ s (if too_many max (sessions s) then Refusing else Forking))
  | Go, Refusing => Some (at_ s Served)
  | NoFork, Forking => Some (at_ s Served)
  | Forks pid fd, Forking =>
      if existsb (fun p => fst p =? pid) (procs s) || existsb (fun k => k_fd k =? fd) (kids s) || (fd <? 0) then None
      else Some (at_ (with_procs s ((pid, Runs) :: procs s)) (Adding pid fd))
  | Alloc true, Adding pid fd => Some (State (Growing fd) (Kid pid fd :: kids s) (polled s) (u32 (sessions s + 1)) (chld s) (exit s) (alrm s) (armed s) (procs s) (asking s))
  | Alloc false, Adding pid fd => Some (at_ (with_procs s (map (dooms pid) (procs s))) Served)
  | Grow true, Growing fd => Some (State Served (kids s) (polled s ++ [fd]) (sessions s) (chld s) (exit s) (alrm s) (armed s) (procs s) (asking s))
  | Grow false, Growing fd => Some (at_ s Served)
  | Go, Served => Some (at_ s (if exit s then Leaving else Reap ToTop))
  | Go, Reap a => Some (at_ s (if chld s then Wait a else back a))
  | Reaped pid shrink, Wait a =>
      if existsb (fun p => (fst p =? pid) && is_exited p) (procs s) then
        let s := with_procs s (filter (fun p => negb (fst p =? pid)) (procs s)) in
        match find_kid (kids s) pid with None => Some (at_ s Crashed) | Some k => Some (free_kid s k shrink) end
      else None
  | NoChild, Wait a => if existsb is_exited (procs s) then None else Some (at_ s (Clear a))
  | Go, Clear a => Some (State (back a) (kids s) (polled s) (sessions s) false (exit s) (alrm s) (armed s) (procs s) (asking s))
  | Go, Leaving => Some (State Left (map (fun k => Kid (k_pid k) (-1)) (kids s)) (polled s) (sessions s) (chld s) (exit s) false (negb (dieby =? 0)) (procs s) (asking s))
  | Go, Left => Some (at_ s (if negb (alrm s) && negb (match kids s with [] => true | _ => false end) then LeftTest else Finish))
  | Go, LeftTest => Some (at_ s (if chld s then Reap ToLeft else Suspending))
  | Go, Suspending => Some (at_ s Suspended)
  | Go, Finish => Some (at_ (match kids s with [] => s | _ => with_procs s (map dooms_all (procs s)) end) Ended)
  | _, _ => None
  end.

Fixpoint run (max dieby : Z) (s : state) (l : list event) : option state :=
  match l with [] => Some s | e :: r => match step max dieby s e with Some s' => run max dieby s' r | None => None end end.
