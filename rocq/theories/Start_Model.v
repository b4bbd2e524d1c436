(** Model of the start of the programs owampd and powstream: lock files, process ids, paths and some options (owampd/owampd.c 1499-1850, powstream/powstream.c 1362-1790),
    and of the order of the system calls with which powstream stores its files (powstream.c 630-805, 2110-2195).
    Not modelled: privileges (Priv_Model), limits and data directory (Limits_Model, Datadir_Model), syslog, failures of chdir, setsid, seteuid. *)
From Coq Require Import ZArith List Bool Arith.
From Verif Require Import Base Ping_Model Datadir_Model.
Import ListNotations.
Open Scope Z_scope.

(** ** Locks *)

(** A record lock of fcntl(2) belongs to the process that has set it: it is not inherited by fork(2), and it ends when that process ends (fcntl(2), fork(2)).
    Programs that use the same lock file; owampd -Z; powstream *)
Inductive prog := Daemon | Foreground | Pow.
(** where a process is: before fcntl (owampd.c 1521, powstream.c 1604); after it; parent after fork (owampd.c 1741) with the child it has; child after fork; the process id is in the file; at work *)
Inductive phase := Begin | Locked | Parent (child : nat) | Child | Recorded | Working.
(** a process: number, program, address at which it serves (no meaning for powstream), phase *)
Record proc := Proc { p_id : nat; p_prog : prog; p_addr : nat; p_phase : phase }.
(** [holder]: the process that holds the lock; [written]: the process id in the file *)
Record procs := Procs { holder : option nat; written : option nat; alive : list proc }.

Definition others (n : nat) (l : list proc) : list proc := filter (fun p => negb (Nat.eqb (p_id p) n)) l.
Definition ends (n : nat) (s : procs) : procs :=
  Procs (match holder s with Some h => if Nat.eqb h n then None else Some h | None => None end) (written s) (others n (alive s)).
Definition goes (p : proc) (ph : phase) (s : procs) : procs := Procs (holder s) (written s) (Proc (p_id p) (p_prog p) (p_addr p) ph :: others (p_id p) (alive s)).
Definition is_alive (n : nat) (s : procs) : bool := existsb (fun p => Nat.eqb (p_id p) n) (alive s).
Definition at_work (p : proc) : bool := match p_phase p with Working => true | _ => false end.
(** sapi.c 82-98: bind fails if another process listens at the address *)
Definition address_free (a : nat) (s : procs) : bool := negb (existsb (fun p => at_work p && Nat.eqb (p_addr p) a) (alive s)).

(** One more step of process [p]; [ok]: the system calls of the step succeed; [child]: the number fork(2) gives.
    owampd.c 1521-1525 (lock), 1741-1746 (fork), 1789-1822 (files, end of the parent), 1834-1839 (socket); powstream.c 1604-1618.
    ftruncate before a write that fails leaves an empty file (owampd.c 1792); powstream does not truncate, its failing write is modelled in the same way *)
Definition advance (p : proc) (ok : bool) (child : nat) (s : procs) : procs :=
  let n := p_id p in
  match p_phase p with
  | Begin =>
      if ok && match holder s with None => true | Some h => Nat.eqb h n end
      then goes p Locked (Procs (Some n) (written s) (alive s)) else ends n s
  | Locked =>
      match p_prog p with
      | Daemon =>
          if ok && negb (is_alive child s) && negb (Nat.eqb child n)
          then goes p (Parent child) (Procs (holder s) (written s) (Proc child Daemon (p_addr p) Child :: alive s)) else ends n s
      | _ => if ok then goes p Recorded (Procs (holder s) (Some n) (alive s)) else ends n (Procs (holder s) None (alive s))
      end
  | Parent c =>                                                   (* kill(mypid,SIGTERM) if a file cannot be written *)
      if ok then ends n (Procs (holder s) (Some c) (alive s)) else ends n (ends c (Procs (holder s) None (alive s)))
  | Child => if ok && address_free (p_addr p) s then goes p Working s else ends n s
  | Recorded =>
      match p_prog p with
      | Pow => if ok then goes p Working s else ends n s          (* powstream.c 1625-1790: options, signals *)
      | _ => if ok && address_free (p_addr p) s then goes p Working s else ends n s
      end
  | Working => s
  end.

(** what happens: a program is started as a new process, a process goes on, a process ends (by a signal, or its work is done) *)
Inductive happens := Starts (n : nat) (g : prog) (addr : nat) | GoesOn (n : nat) (ok : bool) (child : nat) | Ends (n : nat).
Definition happen (s : procs) (e : happens) : procs :=
  match e with
  | Starts n g a => if is_alive n s then s else Procs (holder s) (written s) (Proc n g a Begin :: alive s)
  | GoesOn n ok child => match find (fun p => Nat.eqb (p_id p) n) (alive s) with Some p => advance p ok child s | None => s end
  | Ends n => ends n s
  end.
Definition history (l : list happens) : procs := fold_left happen l (Procs None None []).

(** ** Paths *)

Definition powlock : list Z := [46; 112; 111; 119; 108; 111; 99; 107].                       (* ".powlock" *)
Definition powtmp : list Z := [112; 111; 119; 46; 88; 88; 88; 88; 88; 88].                   (* "pow.XXXXXX" *)
Definition ext_sum : list Z := [46; 115; 117; 109].                                          (* ".sum" *)
(** powstream.c 1567-1581: dirpath; None: the directory is refused *)
Definition fname_len : Z := 2 * 20 + 1 + Z.max (len ext) (len ext_sum) + len ext_incomplete.
Definition dirpath (savedir : option (list Z)) : option (list Z) :=
  match savedir with
  | Some d => if PATH_MAX <? len d + 1 + fname_len + 1 then None else Some (d ++ sep)
  | None => Some []
  end.
(** 1592-1593, 1092-1093, 637-642 and 690, 736-741 and 790 (2114-2118 and 2168-2169 in the loop) *)
Definition lock_path (dir : list Z) : list Z := dir ++ powlock.
Definition tmp_path (dir : list Z) : list Z := dir ++ powtmp.
Definition incomplete_path (dir : list Z) (x : list Z) (start stop : Z) : list Z := dir ++ stamp start ++ [95] ++ stamp stop ++ x ++ ext_incomplete.
Definition complete_path (dir : list Z) (x : list Z) (start stop : Z) : list Z :=
  firstn (length dir + 41) (incomplete_path dir x start stop) ++ x.                          (* sprintf(&fname[ext_offset],"%s",ext) *)

(** owampd.c 1507-1509, 1805-1807; [prefix]: "owamp-server" or "twamp-server" *)
Definition pid_path (vardir prefix : list Z) : list Z := vardir ++ sep ++ prefix ++ [46; 112; 105; 100].
Definition info_path (vardir prefix : list Z) : list Z := vardir ++ sep ++ prefix ++ [46; 105; 110; 102; 111].
(** the directory in which a path is looked up: owampd.c 1725 is chdir("/") unless -Z is given.  [cwd] as in Datadir_Model *)
Definition cwd_later (detached : bool) (cwd : list name) : list name := if detached then [] else cwd.
(** 1499-1504: without option or configuration the current directory is used, with its full name *)
Definition pid_place (cwd : list name) (vardir prefix : list Z) : list name := place_of cwd (pid_path vardir prefix).
Definition info_place (detached : bool) (cwd : list name) (vardir prefix : list Z) : list name := place_of (cwd_later detached cwd) (info_path vardir prefix).
(** policy.c 1086 (mkdir when the server starts) and 2574-2600 (session files) with the data directory as it was given *)
Definition datadir_at_start (cwd : list name) (datadir : list Z) : list name := place_of cwd datadir.
Definition datadir_of_sessions (detached : bool) (cwd : list name) (datadir : list Z) : list name := place_of (cwd_later detached cwd) datadir.

(** ** Options of powstream *)

(** powstream.c 1625-1636: -c and -N: packets of a summary and number of summaries; None: refused *)
Definition summaries (c n : Z) : option (Z * Z) :=
  if n =? 0 then Some (c, 0) else if (c <? n) || negb (c mod n =? 0) then None else Some (n, c / n).
(** 1651-1653: -I; [session]: the product of -c and -i as a 32-bit number of seconds *)
Definition retry_delay (i session : Z) : Z := if session <? i then session else i.
(** 1383-1390 and 1775-1780: -E: setEndDelay is never assigned in powstream.c, the memory is zero (1300); the value that is stored in the context *)
Definition end_delay {A : Type} (given : option A) : option A := let set_end_delay := false in if set_end_delay then given else None.

(** ** How powstream stores its files *)

(** files: contents by number; names *)
Record disk := Disk { data : list (nat * list Z); names : list (list Z * nat) }.
Inductive call := Create (n : list Z) | Write (f : nat) (s : list Z) | Link (old new : list Z) | Unlink (n : list Z).
Definition named (d : disk) (n : list Z) : option nat := match find (fun e => eqb_octets (fst e) n) (names d) with Some e => Some (snd e) | None => None end.
Definition held (d : disk) (f : nat) : list Z := match find (fun e => Nat.eqb (fst e) f) (data d) with Some e => snd e | None => [] end.
Definition visible (d : disk) (n : list Z) : option (list Z) := match named d n with Some f => Some (held d f) | None => None end.
(** a new file gets the number [length (data d)]; numbers are not used again.  Creation of an existing name truncates (fopen "w"), O_EXCL is a condition of the theorems *)
Definition perform (d : disk) (c : call) : disk :=
  match c with
  | Create n => Disk ((length (data d), []) :: data d) ((n, length (data d)) :: filter (fun e => negb (eqb_octets (fst e) n)) (names d))
  | Write f s => Disk ((f, held d f ++ s) :: data d) (names d)
  | Link old new => match named d old, named d new with Some f, None => Disk (data d) ((new, f) :: names d) | _, _ => d end
  | Unlink n => Disk (data d) (filter (fun e => negb (eqb_octets (fst e) n)) (names d))
  end.
Definition run (d : disk) (l : list call) : disk := fold_left perform l d.

(** 645-703: the file of all records: [chunks] are the pieces in which I2CopyFile writes it *)
Definition store_session (f : nat) (t o : list Z) (chunks : list (list Z)) : list call :=
  [Create t] ++ map (Write f) chunks ++ [Link t o; Unlink t].
(** 743-805 and 2121-2195: a summary: [early] is what stdio writes while the text is printed (whole buffers only), [late] what fflush or fclose write (800, 2183, 2177: after link) *)
Definition store_summary (f : nat) (t o : list Z) (early late : list (list Z)) : list call :=
  [Create t] ++ map (Write f) early ++ [Link t o; Unlink t] ++ map (Write f) late.
