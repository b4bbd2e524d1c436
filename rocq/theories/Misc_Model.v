(** Smaller parts of the programs and of the library: the raw output of owping and twping, the options that choose the
    output, the time offset for debugging, and the privilege taken to bind a socket to an interface. *)
From Coq Require Import ZArith List Bool.
From Verif Require Import Double Ping_Model.
Import ListNotations.
Open Scope Z_scope.

(** ** Raw output *)

(** printf "%lu", "%u": decimal digits without leading zeros; a 64 bit number has at most twenty *)
Fixpoint print_digits (k : nat) (n : Z) : list Z :=
  match k with
  | O => [48 + n mod 10]
  | S j => if n <? 10 then [48 + n] else print_digits j (n / 10) ++ [48 + n mod 10]
  end.
Definition print_u (n : Z) : list Z := print_digits 20 n.

(** owamp.h: OWPTimeStamp (owptime, sync, multiplier, scale) and OWPDataRec *)
Record tstamp := Stamp { at_time : Z; at_sync : Z; at_mult : Z; at_scale : Z }.
Record record := Rec { r_seq : Z; r_send : tstamp; r_recv : tstamp; r_ttl : Z }.

Definition blank : Z := 32.
Definition newline : Z := 10.

(** owping.c 244-273: RAWFMT and printraw, without the end of the line.  [g]: what "%g" makes of OWPGetTimeStampError
    of a multiplier and a scale *)
Definition raw_words (g : Z -> Z -> list Z) (r : record) : list Z :=
  let err t := g (at_mult t) (at_scale t) in
  print_u (r_seq r) ++ [blank] ++
  stamp (at_time (r_send r)) ++ [blank] ++ print_u (at_sync (r_send r)) ++ [blank] ++ err (r_send r) ++ [blank] ++
  stamp (at_time (r_recv r)) ++ [blank] ++ print_u (at_sync (r_recv r)) ++ [blank] ++ err (r_recv r) ++ [blank] ++
  print_u (r_ttl r).
Definition printraw (g : Z -> Z -> list Z) (r : record) : list Z := raw_words g r ++ [newline].

(** owping.c 296-322: printrawTW *)
Definition printrawTW (g : Z -> Z -> list Z) (r : record * record) : list Z :=
  raw_words g (fst r) ++ [blank] ++ raw_words g (snd r) ++ [newline].

(** owping.c 353-372 with api.c OWPParseRecords and OWPParseTWRecords (the calls of the function, in the order of the
    file, modelled in File_Model): what do_stats writes in raw mode *)
Definition raw_output (g : Z -> Z -> list Z) (l : list record) : list Z := flat_map (printraw g) l.
Definition raw_output_tw (g : Z -> Z -> list Z) (l : list (record * record)) : list Z := flat_map (printrawTW g) l.

(** ** Options that choose the output *)

Inductive flag := F4 | F6 | Fv | FM | FQ | FR.
Record opts := Opts { o_v4 : bool; o_v6 : bool; o_records : bool; o_machine : bool; o_quiet : bool; o_raw : bool }.

(** owping.c 1332-1337, 1500-1538: one option of the command line *)
Definition set_flag (o : opts) (f : flag) : opts :=
  match f with
  | F4 => Opts true (o_v6 o) (o_records o) (o_machine o) (o_quiet o) (o_raw o)
  | F6 => Opts (o_v4 o) true (o_records o) (o_machine o) (o_quiet o) (o_raw o)
  | Fv => Opts (o_v4 o) (o_v6 o) true (o_machine o) (o_quiet o) (o_raw o)
  | FM => Opts (o_v4 o) (o_v6 o) (o_records o) true (o_quiet o) (o_raw o)
  | FQ => Opts (o_v4 o) (o_v6 o) (o_records o) (o_machine o) true (o_raw o)
  | FR => Opts (o_v4 o) (o_v6 o) (o_records o) (o_machine o) (o_quiet o) true
  end.

(** owping.c 1569-1608: [None]: the program ends with an error *)
Definition settle (o : opts) : option opts :=
  if o_v4 o && o_v6 o then None else
  let quiet := if o_raw o then true else o_quiet o in
  let records := if o_records o && quiet then false else o_records o in
  let machine := if o_machine o && quiet then false else o_machine o in
  let records := if records && machine then false else records in
  Some (Opts (o_v4 o) (o_v6 o) records machine quiet (o_raw o)).

(** owping.c 1263 (memset of ping_ctx), 1326-1608 *)
Definition read_flags (l : list flag) : option opts :=
  settle (fold_left set_flag l (Opts false false false false false false)).

Inductive output := Raw_lines | Packet_lines | Machine_summary | Summary.

(** owping.c 353-372, 436, 450-459: do_stats *)
Definition do_stats_output (o : opts) : list output :=
  if o_raw o then [Raw_lines] else
  (if o_records o then [Packet_lines] else []) ++ (if o_machine o then [Machine_summary] else [Summary]).

(** owping.c 2011-2040, 2112: whether the results of a measurement or of a fetched session are shown *)
Definition shown (o : opts) : list output := if negb (o_quiet o) || o_raw o then do_stats_output o else [].

(** ** The time offset for debugging *)

(** strtod of the value of OWAMP_DEBUG_TIMEOFFSET: nothing converted; or a sign, a magnitude (numerator, denominator),
    and whether text follows.  [errno] afterwards is that of before unless strtod sets it: [sets] *)
Inductive strtod_result := Nothing | Number (neg : bool) (mag : Z * Z) (follows : bool) (sets : bool).

(** the subtraction of doubles, for x >= y *)
Definition d_sub (x y : Z * Z) : Z * Z := b64 (fst x * snd y - fst y * snd x) (snd x * snd y).

(** time.c 143-183: _OWPInitNTP: sign_timeoffset, tv_sec, tv_usec; [None]: refused.  [var = None]: the variable is not set;
    [erange]: errno is ERANGE when the function is called; [sign]: sign_timeoffset before (static, 0 at first).
    Simplification: tv_sec is not bounded (trunc of a double above 2^63 is undefined) *)
Definition init_offset (erange : bool) (sign : Z) (var : option strtod_result) : option (Z * Z * Z) :=
  match var with
  | None => Some (sign, 0, 0)
  | Some Nothing => None
  | Some (Number neg mag _ sets) =>
      if erange || sets then None else
      if fst mag =? 0 then Some (0, 0, 0) else
      let sec := d_trunc mag in
      let td := d_sub mag (d_int sec) in
      let td := d_mul td (d_int 1000000) in
      Some (if neg then -1 else 1, sec, d_trunc td)
  end.

(** owamp.h 1774-1795: tvaladd, tvalsub; time.c 209-214 *)
Definition tvaladd (a b : Z * Z) : Z * Z :=
  let s := fst a + fst b in let u := snd a + snd b in
  if 1000000 <=? u then (s + 1, u - 1000000) else (s, u).
Definition tvalsub (a b : Z * Z) : Z * Z :=
  let s := fst a - fst b in let u := snd a - snd b in
  if u <? 0 then (s - 1, u + 1000000) else (s, u).
Definition shift_clock (off : Z * Z * Z) (tod : Z * Z) : Z * Z :=
  let '(sign, sec, usec) := off in
  if 0 <? sign then tvaladd tod (sec, usec) else if sign <? 0 then tvalsub tod (sec, usec) else tod.

(** ** Privileges *)

(** What the system does in one call of OWPSetEffectiveCapability: whether cap_from_name, cap_get_proc, cap_set_flag,
    cap_set_proc and cap_free succeed *)
Record cap_calls := Calls { c_name : bool; c_get : bool; c_flag : bool; c_set : bool; c_free : bool }.

(** the effective set of the process: for each capability whether it is in it *)
Definition caps := Z -> bool.
(** CAP_NET_RAW *)
Definition net_raw : Z := 13.

(** api.c 3775-3818: OWPSetEffectiveCapability: the set afterwards and the result *)
Definition set_capability (c : cap_calls) (cap : Z) (on : bool) (e : caps) : caps * bool :=
  if negb (c_name c) then (e, false) else
  if negb (c_get c) then (e, false) else
  if negb (c_flag c) then (e, false) else
  if negb (c_set c) then (e, false) else
  ((fun x => if x =? cap then on else e x), c_free c).

(** api.c 3881-3914: OWPSocketInterfaceBind: the effective set during setsockopt, the one afterwards, the result.
    [bind]: whether setsockopt succeeds with a set *)
Definition interface_bind (a r : cap_calls) (bind : caps -> bool) (e : caps) : caps * caps * bool :=
  let (e1, _) := set_capability a net_raw true e in
  let rc := bind e1 in
  let (e2, _) := set_capability r net_raw false e1 in
  (e1, e2, rc).
