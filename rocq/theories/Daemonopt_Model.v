(** Model of the options of the daemon: the configuration file (owampd/owampd.c 882-1222), the command line (1256-1471), and the installation of
    the policy (owampd/policy.c 1149-1364).
    Trusted as they are documented: getopt(3) (the command line is the list of the options it delivers), strncasecmp(3), strdup(3) (does not fail),
    I2ReadConfVar of I2util (not in the repository): it delivers key and value of the next line that sets something and adds the number of the lines
    read to the number it is given; 0 at the end of the file, negative if a line cannot be read.  Strings without the final NUL. *)
From Coq Require Import String ZArith List Bool QArith.
From Verif Require Import Base Port_Model Options_Model Options_Spec Config_Model.
Import ListNotations.
Open Scope Z_scope.
Local Arguments chars s%string.

(** owampd/owampdP.h 35-80 and syslogattr (owampd.c 82): the fields that options set, without portspec *)
Inductive setting :=
  Facility | LogLevel | LogLocation | AllowRoot | Datadir | User | Group | Verbose | Authmode | Srcnode | Vardir | Diskfudge | Dieby | ControlTimeout
| Pbkdf2Count | EndDelay | MaxControl | TestTimeout | Foreground.
Definition setting_eq (a b : setting) : {a = b} + {a <> b}. Proof. decide equality. Defined.

(** the double strtod(3) gives *)
Inductive real := Fin (q : Q) | PosInf | NegInf | NotANumber.
(** NULL, a string, a number, a double, True or False.  EndDelay: [Null] is setEndDelay == False *)
Inductive value := Null | Text (s : list Z) | Num (n : Z) | Real (r : real) | Flag (b : bool).

(** portspec: whether it points to portrec; and portrec *)
Record opts := Opts { get : setting -> value; portspec : bool; portrec : Z * Z }.
Definition set (o : opts) (s : setting) (v : value) : opts := Opts (fun x => if setting_eq s x then v else get o x) (portspec o) (portrec o).

(** owampd.c 1265-1287 (LOG_DAEMON: 3 << 3, OWPErrINFO: owamp.h), static variables without initialiser: 75-77; 53, 59: OWP_DFLT_CONTROL_TIMEOUT.  [tw]: twampd *)
Definition OWPErrINFO : Z := 6.
Definition initial (tw : bool) : opts :=
  Opts (fun s => match s with
        | Facility => Num 24 | LogLevel => Num OWPErrINFO | LogLocation | AllowRoot | Verbose | Foreground => Flag false
        | Datadir | User | Group | Authmode | Srcnode | Vardir | EndDelay => Null
        | Diskfudge => Real (Fin 1) | Dieby => Num 5 | ControlTimeout => Num (if tw then 900 else 1800)
        | Pbkdf2Count | MaxControl | TestTimeout => Num 0
        end) false (0, 0).

(** owampd.c 882-953: parse_ports; the first part is the options afterwards, the second whether the string is accepted *)
Definition parse_ports (o : opts) (s : list Z) : opts * bool :=
  let with_rec r := Opts (get o) (portspec o) r in
  let done r := if (snd r =? 0) && (fst r =? 0) then (with_rec r, true) else (Opts (get o) true r, true) in
  match parse_port s with
  | None => (o, false)
  | Some (low, r) =>
      match skip_space r with
      | [] => done (low, low)
      | 45 :: r =>
          match parse_port r with
          | None => (with_rec (low, snd (portrec o)), false)
          | Some (high, _) => if high <? low then (with_rec (low, high), false) else done (low, high)
          end
      | _ => (with_rec (low, snd (portrec o)), false)
      end
  end.

(** error.c 54-79: OWPReportLevelByName (names of owamp.h 288-294) *)
Definition report_level (s : list Z) : option Z :=
  if same_name s (chars "fatal") then Some 3 else if same_name s (chars "warning") then Some 4 else if same_name s (chars "info") then Some 6
  else if same_name s (chars "debug") then Some 7 else if same_name s (chars "all") then Some 8 else if same_name s (chars "none") then Some 0 else None.

(** strncasecmp(s,name,strlen(name)) == 0 *)
Definition begins_with (s name : list Z) : bool := eqb_octets (map lower (firstn (length name) s)) name.

Section Daemon.
(** I2ErrLogSyslogFacility of I2util; strtod: [None] no conversion, otherwise the double and whether errno is ERANGE *)
Variable facility : list Z -> option Z.
Variable strtod : list Z -> option (real * bool).
Variable tw : bool.

(** comparisons of doubles *)
Definition at_least (a : Q) (r : real) : bool := match r with Fin q => Qle_bool a q | PosInf => true | _ => false end.
Definition at_most (r : real) (b : Q) : bool := match r with Fin q => Qle_bool q b | NegInf => true | _ => false end.
Definition conf_real (ok : real -> bool) (v : list Z) : option value :=
  match strtod v with Some (r, false) => if ok r then Some (Real r) else None | _ => None end.
Definition conf_num (v : list Z) : option value := match conf_number v with Some n => Some (Num n) | None => None end.

(** owampd.c 999-1215: one line; [None]: rc becomes negative *)
Definition conf_line (o : opts) (key val : list Z) : option opts :=
  let put s v := match v with Some v => Some (set o s v) | None => None end in
  if same_name key (chars "facility") then put Facility (match facility val with Some f => Some (Num f) | None => None end)
  else if same_name key (chars "loglevel") then put LogLevel (match report_level val with Some l => Some (Num l) | None => None end)
  else if same_name key (chars "loglocation") then put LogLocation (Some (Flag true))
  else if same_name key (chars "rootfolly") then put AllowRoot (Some (Flag true))
  else if same_name key (chars "datadir") then put Datadir (Some (Text val))
  else if same_name key (chars "user") then put User (Some (Text val))
  else if same_name key (chars "group") then put Group (Some (Text val))
  else if same_name key (chars "verbose") then put Verbose (Some (Flag true))
  else if same_name key (chars "authmode") then put Authmode (Some (Text val))
  else if same_name key (chars "srcnode") then put Srcnode (Some (Text val))
  else if same_name key (chars "testports") then (let (o', ok) := parse_ports o val in if ok then Some o' else None)
  else if same_name key (chars "vardir") then put Vardir (Some (Text val))
  else if negb tw && same_name key (chars "diskfudge") then put Diskfudge (conf_real (fun r => at_least 1 r && at_most r 10) val)
  else if same_name key (chars "dieby") then put Dieby (conf_num val)
  else if same_name key (chars "controltimeout") then put ControlTimeout (conf_num val)
  else if same_name key (chars "pbkdf2_count") then put Pbkdf2Count (conf_num val)
  else if same_name key (chars "enddelay") then put EndDelay (conf_real (at_least 0) val)
  else if begins_with key (chars "maxcontrolsessions") then put MaxControl (conf_num val)
  else if tw && begins_with key (chars "testtimeout") then put TestTimeout (conf_num val)
  else None.

(** What I2ReadConfVar finds: key, value, and the number of lines read for them; then the end of the file ([None]) or, after some lines, one it cannot read *)
Record conf := Conf { entries : list (list Z * list Z * Z); bad : option Z }.

(** owampd.c 996-1219: the loop; [inr row]: the row in the message with which the daemon ends *)
Fixpoint conf_lines (o : opts) (rc : Z) (l : list (list Z * list Z * Z)) (bad : option Z) : opts + Z :=
  match l with
  | [] => match bad with None => inl o | Some n => inr (rc + n) end
  | (key, val, n) :: r =>
      match conf_line o key val with Some o' => conf_lines o' (rc + n) r bad | None => inr (rc + n) end
  end.

(** how the program ends: exit status and the row of the message, if any; or it goes on *)
Inductive outcome (A : Type) := Goes (a : A) | Exits (status : Z) (row : option Z).
Arguments Goes {A} _. Arguments Exits {A} _ _.

Definition MAXPATHLEN : Z := 4096.
(** owampdP.h 24-30 *)
Definition conf_name : list Z := if tw then chars "twamp-server.conf" else chars "owamp-server.conf".
(** owampd.c 971-988: the name of the file; the array has MAXPATHLEN+1 octets.  [None]: refused.  (983-988 and 976: the name alone is never too long) *)
Definition conf_path (confdir : option (list Z)) : option (list Z) :=
  match confdir with
  | Some d => if MAXPATHLEN <? Z.of_nat (length conf_name + (length d + 1)) then None else Some (d ++ [47] ++ conf_name)
  | None => Some conf_name
  end.

(** owampd.c 955-1222: LoadConfig; rc is the length of the path when the loop begins (973, 979) *)
Definition load_config (fopen : list Z -> option conf) (confdir : option (list Z)) (o : opts) : outcome opts :=
  match conf_path confdir with
  | None => Exits 1 None
  | Some path =>
      match fopen path with
      | None => match confdir with Some _ => Exits 1 None | None => Goes o end
      | Some c => match conf_lines o (Z.of_nat (length path)) (entries c) (bad c) with inl o' => Goes o' | inr row => Exits 1 (Some row) end
      end
  end.

(** What getopt delivers: -a -c -d -e -f -G -h -P -R -S -U -v -Z, and anything else ('?') *)
Inductive arg := A (s : list Z) | C (s : list Z) | D (s : list Z) | E (s : list Z) | F | G (s : list Z) | H | P (s : list Z) | R (s : list Z) | S (s : list Z)
  | U (s : list Z) | V | ZZ | Unknown.

(** owampd.c 1298-1310: the last -c *)
Definition confdir (l : list arg) : option (list Z) := fold_left (fun d a => match a with C s => Some s | _ => d end) l None.

(** owampd.c 1327-1347 *)
Fixpoint pass2 (o : opts) (l : list arg) : outcome opts :=
  match l with
  | [] => Goes o
  | E s :: r => match facility s with Some f => pass2 (set o Facility (Num f)) r | None => Exits 1 None end
  | ZZ :: r => pass2 (set o Foreground (Flag true)) r
  | _ :: r => pass2 o r
  end.

(** owampd.c 1375-1444 (DEBUG is not defined) *)
Fixpoint pass3 (o : opts) (l : list arg) : outcome opts :=
  match l with
  | [] => Goes o
  | a :: r =>
      match a with
      | A s => pass3 (set o Authmode (Text s)) r
      | D s => pass3 (set o Datadir (Text s)) r
      | F => pass3 (set o AllowRoot (Flag true)) r
      | V => pass3 (set o Verbose (Flag true)) r
      | S s => pass3 (set o Srcnode (Text s)) r
      | U s => pass3 (set o User (Text s)) r
      | G s => pass3 (set o Group (Text s)) r
      | P s => let (o', ok) := parse_ports o s in if ok then pass3 o' r else Exits 1 None
      | R s => pass3 (set o Vardir (Text s)) r
      | C _ | E _ | ZZ => pass3 o r
      | H | Unknown => Exits 0 None
      end
  end.

(** owampd.c 1256-1451: the options when the daemon goes on; [operands]: number of the arguments that are not options.
    (getcwd, the error handle and the context are assumed not to fail) *)
Definition options (fopen : list Z -> option conf) (args : list arg) (operands : nat) : outcome opts :=
  match load_config fopen (confdir args) (initial tw) with
  | Goes o => match pass2 o args with
              | Goes o => match pass3 o args with
                          | Goes o => match operands with O => Goes o | _ => Exits 1 None end
                          | x => x
                          end
              | x => x
              end
  | x => x
  end.

(** owampd.c 1456-1461: the range of test ports that is put into the context *)
Definition test_ports (o : opts) : option (Z * Z) := if portspec o then Some (portrec o) else None.

End Daemon.
Arguments Goes {A} _. Arguments Exits {A} _ _.

(** owampd.c 1648-1686: the modes that are offered; [None]: the daemon ends.  owamp.h 270-285, twamp.h *)
Definition MODE_BITS (tw : bool) (c : Z) : option Z :=
  if upper c =? 79 then Some 1 else if upper c =? 65 then Some 2 else if upper c =? 69 then Some 4 else if tw && (upper c =? 77) then Some 8 else None.
Fixpoint auth_modes (tw : bool) (m : Z) (s : list Z) : option Z :=
  match s with [] => Some m | c :: r => match MODE_BITS tw c with Some b => auth_modes tw (Z.lor m b) r | None => None end end.
Definition auth_mode (tw : bool) (v : value) : option Z :=
  match v with Text s => auth_modes tw 0 s | _ => Some (if tw then 15 else 7) end.

(** ** policy.c 1149-1364: OWPDPolicyInstall *)

(** the answers of the file system and of the library: fopen (a stream, ENOENT, another error), the parsers of both files on the stream or NULL (true: no error),
    fclose, and the eight calls that put something into the context (true: success) *)
Inductive opened := Stream (f : nat) | NoFile | OpenError.
Record world := World { w_open : list Z -> opened; w_pfs : option nat -> bool; w_limits : option nat -> bool; w_close : nat -> bool; w_set : nat -> bool }.
(** what is done: a file closed, a record stored (0: the policy itself, 1-7: the hooks in the order of 1298-1331) *)
Inductive action := Close (f : nat) | Install (n : nat).

Definition suffix_pfs : list Z := chars ".pfs".
Definition suffix_limits : list Z := chars ".limits".
(** 1220-1237, 1246-1263: [None]: too long for the array of MAXPATHLEN+1 octets *)
Definition policy_path (dir prefix suffix : list Z) : option (list Z) :=
  if MAXPATHLEN <? Z.of_nat (length prefix + length suffix) then None else
  if MAXPATHLEN <? Z.of_nat (length prefix + length suffix + (length dir + 1)) then None else Some (dir ++ [47] ++ prefix ++ suffix).
Definition stream (x : opened) : option nat := match x with Stream f => Some f | _ => None end.
Definition open_error (x : opened) : bool := match x with OpenError => true | _ => false end.
Definition close_if (x : option nat) : list action := match x with Some f => [Close f] | None => [] end.
(** 1298-1331 *)
Fixpoint installs (set : nat -> bool) (n k : nat) : list action * bool :=
  match k with
  | O => ([], true)
  | Datatypes.S k => if set n then let (l, ok) := installs set (Datatypes.S n) k in (Install n :: l, ok) else ([], false)
  end.
(** the result: what was done in order, and whether a policy is returned.  (Memory and hash tables are assumed not to fail; their release at the label error is not modelled) *)
Definition install (w : world) (dir prefix : list Z) : list action * bool :=
  let fail lfp kfp := close_if lfp ++ close_if kfp in          (* 1335-1341 *)
  let bad_close x := match x with Some f => negb (w_close w f) | None => false end in
  match policy_path dir prefix suffix_pfs with
  | None => ([], false)
  | Some p =>
      if open_error (w_open w p) then ([], false) else
      let kfp := stream (w_open w p) in
      match policy_path dir prefix suffix_limits with
      | None => (fail None kfp, false)
      | Some p =>
          if open_error (w_open w p) then (fail None kfp, false) else
          let lfp := stream (w_open w p) in
          if negb (w_pfs w kfp) then (fail lfp kfp, false) else
          if negb (w_limits w lfp) then (fail lfp kfp, false) else
          if bad_close kfp then (close_if kfp ++ fail lfp kfp, false) else
          if bad_close lfp then (close_if kfp ++ close_if lfp ++ fail lfp None, false) else
          let (i, ok) := installs (w_set w) 0 8 in (close_if kfp ++ close_if lfp ++ i, ok)
      end
  end.
