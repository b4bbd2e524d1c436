(** What do_stats of owping does around the statistics: the limit of the option -vN, the memory of the statistics object,
    and the files and objects that are in use while summaries are written. *)
From Coq Require Import ZArith List Bool Arith.
From Verif Require Import Base Time_Model Wire_Model File_Model Stats_Model Misc_Model.
Import ListNotations.
Open Scope nat_scope.

(** ** The limit of -vN *)

(** one option: without a number, or -vN *)
Inductive vopt := Flag (f : flag) | VN (n : Z).
Definition flag_of (v : vopt) : flag := match v with Flag f => f | VN _ => Fv end.

(** owping.c 1263, 1500-1511: opt.rec_limit, the number of the last -vN; 1597-1608 do not change it *)
Definition rec_limit (l : list vopt) : Z := fold_left (fun a v => match v with VN n => n | Flag _ => a end) l 0%Z.

(** owping.c 376-384, 436: the statistics that the one summary of a session is printed from: [rec_limit] of the new object is
    set, and the whole file is parsed.  The arguments in front are those of the session (Stats_Model) *)
Definition summarized (start timeout npackets rec_size : Z) (skips : list skiprec) (delta : nat -> Z) (rlistlen : nat) (bucket : timestamp -> timestamp -> Z)
  (version odata oskip : Z) (f : list Z) (l : list vopt) : parsed :=
  let limit := if (0 <? rec_limit l)%Z then rec_limit l else 0%Z in
  parse start timeout npackets rec_size skips delta rlistlen bucket version odata oskip limit f 0 0 4294967295 (create start skips rlistlen).

(** ** The memory of the statistics object *)

(** what an object of statistics consists of (owamp.h OWPStatsRec); [t]: packet type, below OWP_PKT_TYPE_NUM; [n]: blocks
    are numbered as they come *)
Inductive piece :=
| Obj | Slots | Skips | Sctx | Packets (t n : nat) | Ptable (t : nat) | Buckets (n : nat) | Btable | Rseqno | Rn | Bsort.

(** stats.c 690-930: OWPStatsCreate: what is acquired, in this order; [None]: a step that can only fail (scale, reading the
    slots and the skip records) *)
Definition create_steps (nslots nskips twoway : bool) : list (option piece) :=
  [Some Obj; None]
  ++ (if nslots then [Some Slots; None] else [])
  ++ (if nskips then [Some Skips; None] else [])
  ++ [Some Sctx; Some (Packets 0 0); Some (Ptable 0); Some (Packets 1 0); Some (Ptable 1); Some (Buckets 0); Some Btable]
  ++ (if twoway then [] else [Some Rseqno; Some Rn]).

(** what is held when the n-th step fails or none does *)
Fixpoint acquire (steps : list (option piece)) (fails : nat -> bool) (n : nat) (held : list piece) : list piece * bool :=
  match steps with
  | [] => (held, true)
  | s :: r => if fails n then (held, false)
              else acquire r fails (S n) (match s with Some p => p :: held | None => held end)
  end.

(** stats.c 167-187, 493-517, 1815-1827: what OWPStatsParse may add: a block of packets, a block of buckets, the array for sorting *)
Inductive growth := MorePackets (t : nat) | MoreBuckets | Sorting.
Definition is_packets (t : nat) (p : piece) : bool := match p with Packets u _ => t =? u | _ => false end.
Definition is_buckets (p : piece) : bool := match p with Buckets _ => true | _ => false end.
Definition is_bsort (p : piece) : bool := match p with Bsort => true | _ => false end.
Definition grow (held : list piece) (g : growth) : list piece :=
  match g with
  | MorePackets t => Packets t (length (filter (is_packets t) held)) :: held
  | MoreBuckets => Buckets (length (filter is_buckets held)) :: held
  | Sorting => if existsb is_bsort held then held else Bsort :: held
  end.

Definition piece_eq (a b : piece) : bool :=
  match a, b with
  | Obj, Obj | Slots, Slots | Skips, Skips | Sctx, Sctx | Btable, Btable | Rseqno, Rseqno | Rn, Rn | Bsort, Bsort => true
  | Packets t n, Packets u m => (t =? u) && (n =? m)
  | Ptable t, Ptable u => t =? u
  | Buckets n, Buckets m => n =? m
  | _, _ => false
  end.
Definition give (p : piece) (held : list piece) : list piece := filter (piece_eq p) held.

(** stats.c 568-632: OWPStatsFree: what is given back, in this order *)
Definition stats_free (held : list piece) : list piece :=
  match held with
  | [] => []
  | _ =>
    give Rn held ++ give Rseqno held ++ give Bsort held ++ give Btable held
    ++ filter is_buckets held
    ++ give (Ptable 0) held ++ filter (is_packets 0) held
    ++ give (Ptable 1) held ++ filter (is_packets 1) held
    ++ give Sctx held ++ give Skips held ++ give Slots held ++ [Obj]
  end.

(** ** Objects and files of do_stats *)

(** what happens: the statistics object, the open file and the name of the temporary file come into being and go; the name of a
    result comes into being; it is printed *)
Inductive thing := Stats | Handle | Temp.
Inductive event := Get (t : thing) | Give (t : thing) | Linked (i : nat) | Named (i : nat).

(** the system for one summary: whether fopen, OWPStatsParse and link succeed *)
Record luck := Luck { l_open : bool; l_parse : bool; l_link : bool }.

(** owping.c 418-483 ([single]) and 486-553: one summary; the statistics object exists.  Result: events, whether to go on *)
Definition one_summary (single printfiles : bool) (i : nat) (k : luck) : list event * bool :=
  if printfiles && negb (l_open k) then ([], false)                     (* 426-429, 500-503 *)
  else
    let es := if printfiles then [Get Handle; Get Temp] else [] in
    if negb (l_parse k) then                                            (* 436-446, 510-515 *)
      (es ++ [Give Stats] ++ (if single && printfiles then [Give Handle; Give Temp] else []), false)
    else if negb printfiles then (es, true)
    else if negb (l_link k) then (es ++ [Give Handle; Give Stats; Give Temp], false)   (* 473-478, 543-548 *)
    else (es ++ [Give Handle; Linked i; Give Temp; Named i], true).

Fixpoint summaries (single printfiles : bool) (i : nat) (l : list luck) : list event * bool :=
  match l with
  | [] => ([], true)
  | k :: r =>
    let '(es, go) := one_summary single printfiles i k in
    if go then let '(es2, b) := summaries single printfiles (S i) r in (es ++ es2, b) else (es, false)
  end.

(** owping.c 326-560: do_stats without -R: events, and whether it returns 0.  [num_sum]: the number of samples, 0: one summary of
    all; [luck]: of each summary *)
Definition do_stats (created printfiles : bool) (num_sum : nat) (lucks : nat -> luck) : list event * bool :=
  if negb created then ([], false) else
  let single := num_sum =? 0 in
  let '(es, ok) := summaries single printfiles 0 (map lucks (seq 0 (if single then 1 else num_sum))) in
  (Get Stats :: es ++ (if ok then [Give Stats] else []), ok).
