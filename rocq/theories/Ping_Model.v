(** Model of the programs owping and owfetch (owping/owping.c): authentication (676-794), numbers among the options (1376-1478), the
    start time (1774-1826), what is done in which order and with which exit status (1640-2150), and the output files of option -p (424-545).

    Text is a list of characters, a file is its contents.  The library functions are seen from outside: what they answer is arbitrary. *)
From Coq Require Import ZArith List Bool QArith.
From Verif Require Import Base Arith_Model Control_Model Options_Model Config_Model Report_Model Receiver_Spec.
Import ListNotations.
Open Scope Z_scope.

(** ** Authentication *)

(** owping.c 755-786: option -A; [None]: the program ends.  [twamp]: twping *)
Fixpoint parse_modes (twamp : bool) (acc : Z) (s : list Z) : option Z :=
  match s with
  | [] => Some acc
  | c :: r =>
      if upper c =? 79 then parse_modes twamp (Z.lor acc MODE_OPEN) r else
      if upper c =? 65 then parse_modes twamp (Z.lor acc MODE_AUTH) r else
      if upper c =? 69 then parse_modes twamp (Z.lor acc MODE_ENCR) r else
      if twamp && (upper c =? 77) then parse_modes twamp (Z.lor acc MODE_MIXED) r else None
  end.

(** owamp.h 155-156 *)
Definition default_modes (twamp : bool) : Z :=
  if twamp then Z.lor (Z.lor (Z.lor MODE_OPEN MODE_AUTH) MODE_ENCR) MODE_MIXED else Z.lor (Z.lor MODE_OPEN MODE_AUTH) MODE_ENCR.

(** where the pass phrase comes from: a file (-k) that can be opened or not, with a line for the user or not; the terminal (for a user name that fits the prompt,
    712-718) *)
Inductive source := Unreadable | NoEntry | Entry (pf : list Z) | NoAnswer | Answer (pf : list Z).
(** 687-734: the pass phrase; [None]: `passphrase' is used without having been set, if I2ParsePFFile did not set it (703-709, 731) *)
Definition pass_phrase (s : source) : option (option (list Z)) :=
  match s with Unreadable | NoAnswer => Some None | NoEntry => None | Entry pf | Answer pf => Some (Some pf) end.

(** what the program asks the library for: modes, user and pass phrase *)
Inductive auth := Ask (modes : Z) (user : option (list Z)) (pf : option (list Z)) | Stopped | Undefined.
(** owping.c 676-794: owp_set_auth; options -u, -k (or terminal) and -A *)
Definition set_auth (twamp : bool) (identity : option (list Z)) (src : source) (authmode : option (list Z)) : auth :=
  let ask user pf :=
    match authmode with
    | Some s => match parse_modes twamp 0 s with Some m => Ask m user pf | None => Stopped end
    | None => Ask (match user with Some _ => default_modes twamp | None => MODE_OPEN end) user pf
    end in
  match identity with
  | None => ask None None
  | Some u => match pass_phrase src with
              | None => Undefined
              | Some (Some pf) => ask (Some u) (Some pf)
              | Some None => ask None None
              end
  end.

(** ** Numbers *)

(** owping.c 1376-1383 (-c), 1437-1444 (-s), 1536-1543 (-N): strtoul to a variable of 32 bits; [None]: refused *)
Definition option_number (s : list Z) : option Z := let '(v, e, _) := strtoul10 s in match e with [] => Some (u32 v) | _ => None end.
(** 867, 1665-1688: the padding; [unset]: that for twping without -s *)
Definition padding (s : option (list Z)) (unset : Z) : option Z :=
  match (match s with None => Some 4294967295 | Some s => option_number s end) with
  | None => None
  | Some v => let v := if v =? 4294967295 then unset else v in Some (if 65000 <? v then 65000 else v)
  end.

(** ** Times *)

(** owping.c 1803-1826: the start time; [rtt]: bound of the library, [delay]: option -z (0 if there is none), [now]: the clock *)
Definition start_time (to from : bool) (rtt : Z) (delay : Q) (now : Z) : Z :=
  let ch := 1 + (if to then 1 else 0) + (if from then 1 else 0) in
  let start := OWPNum64Add (OWPNum64Mult rtt (OWPULongToNum64 ch)) (OWPULongToNum64 1) in
  let delay := if Qle_bool delay 0 then OWPULongToNum64 0 else of_double delay in
  OWPNum64Add (if start <? delay then delay else start) now.

(** owping.c 1774-1776, 1829-1830: the loss timeout, in units of 2^-32 s; [loss]: option -L, 0 if there is none *)
Definition loss_timeout (loss : Q) (rtt : Z) : Z := if Qle_bool loss 0 then dbl (dbl rtt + 8589934592) else of_double loss.

(** ** Files *)

(** the file system: contents by name *)
Definition fs := list Z -> option (list Z).
Definition put (f : fs) (n : list Z) (c : option (list Z)) : fs := fun m => if eqb_octets m n then c else f m.
Definition no_files : fs := fun _ => None.

(** ** A test *)

(** options -t, -f (-T, -F), -Q, -R: 1655-1656 and 1592-1594 have been done *)
Record ping_options := Options { o_to : bool; o_from : bool; o_save_to : option (list Z); o_save_from : option (list Z); o_quiet : bool; o_raw : bool }.

(** what the environment does, in the order of the program.  [signals k]: number of signals that have come when owp_intr is tested for the k-th time.
    [file_at k]: what the session from the remote host has written to its file, at several times.  OWPStopSessionsWait answers [wait] with [accept], OWPStopSessions
    [stop]; [fetch]: what OWPFetchSession writes, and whether there is anything (a result of 0 is a failure).  [stats_...]: do_stats succeeds *)
Record environment := Environment {
  connects : bool; has_time : bool; signals : nat -> nat; request_to : bool; open_from : bool; request_from : bool; starts : bool; file_at : nat -> list Z;
  wait : Z; accept : Z; stop : Z; open_to : bool; fetch : option (list Z); stats_to : bool; stats_from : bool }.

Inductive report := ReportTo | ReportFrom.

(** the end of the program: exit status, files, reports printed *)
Record outcome := Outcome { status : Z; files : fs; reports : list report }.

(** owping.c 1744-2056: owping from the connection on (not twping).  Files: only those of -T and -F; the others are anonymous (tfile, 547-580) *)
Definition owping (o : ping_options) (e : environment) (f : fs) : outcome :=
  let with_from k := match o_save_from o with Some n => if o_from o then put f n (Some (file_at e k)) else f | None => f end in
  let unlinked := match o_save_from o with Some n => put f n None | None => f end in
  if negb (connects e) then Outcome 1 f [] else
  if negb (has_time e) then Outcome 1 f [] else
  if (0 <? signals e 0)%nat then Outcome 2 f [] else
  if o_to o && negb (request_to e) then Outcome 1 f [] else
  if (0 <? signals e 1)%nat then Outcome 2 f [] else
  if o_from o && negb (open_from e) then Outcome 1 f [] else
  if o_from o && negb (request_from e) then Outcome 1 (with_from 0%nat) [] else
  if negb (starts e) then Outcome 1 (with_from 1%nat) [] else
  if (0 <? signals e 2)%nat then Outcome 2 (with_from 2%nat) [] else
  if (wait e <? 0) || negb (accept e =? CNTRL_ACCEPT) then Outcome 1 unlinked [] else
  if (wait e =? 2) && negb (stop e =? CNTRL_ACCEPT) then Outcome 2 unlinked [] else
  let f := with_from 3%nat in
  if (1 <? signals e 3)%nat then Outcome 2 f [] else
  let show := negb (o_quiet o) || o_raw o in
  let '(f, r) :=
    if o_to o && (match o_save_to o with Some _ => true | None => false end || show) then
      if negb (open_to e) then (f, []) else
      match fetch e with
      | None => (match o_save_to o with Some n => put f n None | None => f end, [])
      | Some d => (match o_save_to o with Some n => put f n (Some d) | None => f end, if show && stats_to e then [ReportTo] else [])
      end
    else (f, []) in
  if (1 <? signals e 4)%nat then Outcome 2 f r else
  Outcome 0 f (r ++ if o_from o && show && stats_from e then [ReportFrom] else []).

(** ** owfetch *)

(** one session of the command line: name of the session, file; what happens: [decoded]: I2HexDecode of the name, [junk]: contents of the variable if that fails,
    [opened]: fopen, [answer]: what OWPFetchSession writes if asked for a session (None: a result of 0), [parsed]: do_stats *)
Record job := Job { j_file : list Z; decoded : option (list Z); junk : list Z; opened : bool; answer : list Z -> option (list Z); parsed : bool }.
(** owping.c 587-640: owp_fetch_sid; the file that is left, and whether it succeeds *)
Definition fetch_sid (j : job) (sid : list Z) (f : fs) : fs * bool :=
  if negb (opened j) then (f, false) else
  match answer j sid with None => (put f (j_file j) None, false) | Some d => (put f (j_file j) (Some d), true) end.
(** owping.c 2079-2099: the sessions asked for, the files, and how many statistics are printed; the exit status is 0 in any case *)
Fixpoint owfetch (l : list job) (f : fs) : list (list Z) * fs :=
  match l with
  | [] => ([], f)
  | j :: l =>
      let sid := match decoded j with Some s => s | None => junk j end in
      let '(f, _) := fetch_sid j sid f in
      let '(asked, f) := owfetch l f in
      ((if opened j then [sid] else []) ++ asked, f)
  end.

(** ** Output files *)

(** owamp.h 136-148: %020 PRIu64, "_" *)
Definition stamp (t : Z) : list Z := map (fun i => 48 + t / 10 ^ i mod 10) [19; 18; 17; 16; 15; 14; 13; 12; 11; 10; 9; 8; 7; 6; 5; 4; 3; 2; 1; 0].
Definition ext_incomplete : list Z := [46; 105].
(** [dir]: dirpath (1607-1620); ".sum" or ".txt" *)
Definition temp_name (dir : list Z) (start : Z) : list Z := dir ++ stamp start ++ ext_incomplete.
Definition result_name (dir ext : list Z) (s : Z * Z) : list Z := dir ++ stamp (fst s) ++ [95] ++ stamp (snd s) ++ ext.

(** one sample: first and last time, the text that is printed *)
Definition sample := ((Z * Z) * list Z)%type.
(** owping.c 424-478 and 481-545 with -p: [start]: start time of the session; the files, the names printed, and whether it succeeds.  Failures of OWPStatsParse are
    not modelled here; fopen and unlink succeed, link fails exactly if the new name exists *)
Fixpoint write_samples (dir ext : list Z) (start : Z) (l : list sample) (f : fs) : fs * list (list Z) * bool :=
  match l with
  | [] => (f, [], true)
  | (times, text) :: l =>
      let t := temp_name dir start in
      let n := result_name dir ext times in
      let f := put f t (Some text) in
      match f n with
      | Some _ => (put f t None, [], false)
      | None => let '(f, names, ok) := write_samples dir ext start l (put (put f n (Some text)) t None) in (f, n :: names, ok)
      end
  end.

(** stats.c 1698-1707 and 986-988: first and last time of the sample of the packets [begin, end) *)
Definition sample_times (start : Z) (delta : nat -> Z) (r : Z * Z) : Z * Z := (sched_stamp start delta (fst r), sched_stamp start delta (snd r - 1)).
