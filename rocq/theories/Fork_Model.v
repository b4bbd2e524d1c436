(** Model of how the process for a test session is started: _OWPEndpointInitHook (endpoint.c 3885-4034), the part with the signals.
    Line numbers refer to /repo/owamp/owamp/owamp/endpoint.c.
    The kernel: a signal that is blocked stays pending, once; one that is not blocked is handled at once by the handler of that moment; making a signal ignored
    discards it if it is pending (POSIX, sigaction); a new process has no pending signals.
    Signals can arrive before each of the calls. Each call can fail.  What the process of the session does afterwards is in Wait_Model. *)
From Coq Require Import List Bool Arith.
Import ListNotations.

Inductive sig := USR1 | USR2 | HUP | TERM | INT | ALRM | PIPE | CHLD | Other (n : nat).
Definition sig_eqb (a b : sig) : bool :=
  match a, b with
  | USR1, USR1 | USR2, USR2 | HUP, HUP | TERM, TERM | INT, INT | ALRM, ALRM | PIPE, PIPE | CHLD, CHLD => true
  | Other n, Other m => Nat.eqb n m
  | _, _ => false
  end.

(** what is done with a signal: SIG_DFL, SIG_IGN, a handler of the application, sig_catch (1107-1134), sig_nothing (1090-1105) *)
Inductive disp := Dfl | Ign | App (n : nat) | Catch | Nothing.

(** the signals of the calling process: handlers, blocked, pending, what was handled and how (the latest first) *)
Record sigs := Sigs { hd : sig -> disp; mk : sig -> bool; pd : sig -> bool; lg : list (sig * disp) }.
Definition supd {A} (f : sig -> A) (s : sig) (v : A) : sig -> A := fun t => if sig_eqb t s then v else f t.

(** a signal arrives *)
Definition arrive (t : sigs) (s : sig) : sigs :=
  if mk t s then Sigs (hd t) (mk t) (supd (pd t) s true) (lg t) else Sigs (hd t) (mk t) (pd t) ((s, hd t s) :: lg t).
(** sigaction *)
Definition sigaction (s : sig) (d : disp) (t : sigs) : sigs :=
  Sigs (supd (hd t) s d) (mk t) (match d with Ign => supd (pd t) s false | _ => pd t end) (lg t).
(** sigprocmask(SIG_SETMASK): the pending ones of [all] that are not blocked any more are handled *)
Definition setmask (all : list sig) (m : sig -> bool) (t : sigs) : sigs :=
  let due := filter (fun s => pd t s && negb (m s)) all in
  Sigs (hd t) m (fun s => pd t s && m s) (map (fun s => (s, hd t s)) due ++ lg t).

(** 3901-3909: the set of signals *)
Definition eight (s : sig) : bool := match s with Other _ => false | _ => true end.

(** the calls, in the order of the code: 3911 sigprocmask; 3928-3931 and 3942-3944 sigaction; 3960 fetching the handler of SIGCHLD, 3968-3977 setting it;
    3981 fork; 4001-4007 the old handlers; 4014 the old mask without SIGCHLD (3979) *)
Inductive call := Block | Set_ (s : sig) (d : disp) | GetChld | SetChld | Fork | Restore (s : sig) | Unblock.
Definition calls : list call :=
  [Block; Set_ USR1 Catch; Set_ USR2 Catch; Set_ INT Catch; Set_ ALRM Catch; Set_ PIPE Ign; Set_ HUP Ign; Set_ TERM Ign; GetChld; SetChld; Fork;
   Restore USR1; Restore USR2; Restore INT; Restore HUP; Restore TERM; Restore PIPE; Restore ALRM; Unblock].

(** [cur]: the calling process; [old], [omask]: the saved handlers and the saved mask; [kid]: the signals of the new process if there is one *)
Record world := World { cur : sigs; old : sig -> disp; omask : sig -> bool; kid : option sigs }.

Section Hook.
(** all signals there are; which arrive before the i-th call; which call fails *)
Variable all : list sig.
Variable arr : nat -> list sig.
Variable fail : nat -> bool.

Definition on_cur (f : sigs -> sigs) (w : world) : world := World (f (cur w)) (old w) (omask w) (kid w).
(** 3979: sigdelset *)
Definition without_chld (m : sig -> bool) : sig -> bool := supd m CHLD false.

(** a call that succeeds *)
Definition does (c : call) (w : world) : world :=
  match c with
  | Block => World (setmask all (fun s => mk (cur w) s || eight s) (cur w)) (old w) (mk (cur w)) (kid w)
  | Set_ s d => World (sigaction s d (cur w)) (supd (old w) s (hd (cur w) s)) (omask w) (kid w)
  | GetChld => w
  | SetChld => match hd (cur w) CHLD with Dfl => on_cur (sigaction CHLD Nothing) w | _ => w end
  | Fork => World (cur w) (old w) (omask w) (Some (Sigs (hd (cur w)) (mk (cur w)) (fun _ => false) []))
  | Restore s => on_cur (sigaction s (old w s)) w
  | Unblock => on_cur (setmask all (without_chld (omask w))) w
  end.
(** a call that fails, up to the return: 3983-3990 after fork the mask is set; 4023-4028 the new process is ended with SIGINT *)
Definition breaks (c : call) (w : world) : world :=
  match c with
  | Fork => on_cur (setmask all (without_chld (omask w))) w
  | Restore _ | Unblock => World (cur w) (old w) (omask w) None
  | _ => w
  end.

(** SIGCHLD is only set if nothing was set before (3968) *)
Definition happens (c : call) (w : world) : bool := match c with SetChld => match hd (cur w) CHLD with Dfl => true | _ => false end | _ => true end.

(** the result: the state, and whether True is returned *)
Fixpoint hook (l : list call) (i : nat) (w : world) : world * bool :=
  match l with
  | [] => (w, true)
  | c :: l =>
      let w := on_cur (fun t => fold_left arrive (arr i) t) w in
      if fail i && happens c w then (breaks c w, false) else hook l (S i) (does c w)
  end.
Definition start (t : sigs) : world * bool := hook calls 0 (World t (fun _ => Dfl) (fun _ => false) None).
End Hook.
