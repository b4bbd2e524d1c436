(** Model of the reports of owping, owstats and owfetch: the division of a session into samples (owping/owping.c 402-421, 481-512), the list
    of percentiles (owping.c 798-862), and parts of the text (owamp/stats.c 1848-1888, 2105-2268, 2404-2560).

    Doubles and floats are fractions (Double.v, Single.v).  Not modelled: the conversion of numbers to text by printf except where it is
    stated, output files, the remaining lines of the report. *)
From Coq Require Import ZArith List Bool QArith.
From Verif Require Import Base Double Single Stats_Model Options_Model.
Import ListNotations.
Open Scope Z_scope.

(** ** Samples *)

(** owping.c 405-414: number of samples of [n] packets (option -N), 0: one sample for the session *)
Definition num_sum (n npackets : Z) : Z :=
  if (n =? 0) || (npackets <=? n) then 0 else npackets / n + (if npackets mod n =? 0 then 0 else 1).

(** stats.c 1632-1639: the range that OWPStatsParse works on; [None]: it fails *)
Definition parse_range (npackets first last : Z) : option (Z * Z) :=
  let last := if last =? 4294967295 then npackets else last in
  if (last <? first) || (npackets <? last) then None else Some (first, last).

(** owping.c 484-512: the samples from number [sum] on, [k] of them; the first that fails ends the program.  Failures of OWPStatsParse for other reasons are the subject of Stats_Model *)
Fixpoint samples_from (k : nat) (sum n npackets : Z) : list (Z * Z) * bool :=
  match k with
  | O => ([], true)
  | S k =>
      let begin := u32 (n * sum) in
      let end_ := u32 (n * (sum + 1)) in
      let end_ := if npackets <? end_ then 4294967295 else end_ in
      match parse_range npackets begin end_ with
      | None => ([], false)
      | Some r => let (l, ok) := samples_from k (sum + 1) n npackets in (r :: l, ok)
      end
  end.

(** owping.c 419-512: the ranges of sequence numbers, from the first included to the last excluded, that are summarized, and whether all went well *)
Definition summarized (n npackets : Z) : list (Z * Z) * bool :=
  if num_sum n npackets =? 0 then match parse_range npackets 0 4294967295 with Some r => ([r], true) | None => ([], false) end
  else samples_from (Z.to_nat (num_sum n npackets)) 0 n npackets.

(** ** Percentiles *)

(** the result of strtod; infinities count as numbers beyond the limits *)
Inductive number := Number (q : Q) | NaN.

Section Percentiles.
(** strtod(s,&end): the number; [None]: no conversion.  The text behind the number is not looked at *)
Variable strtod : list Z -> option number.

(** owping.c 836-847: one percentile *)
Definition parse_alpha (t : list Z) : option number :=
  match strtod t with
  | None => None
  | Some NaN => Some NaN
  | Some (Number q) => if Qle_bool 0 q && Qle_bool q 100 then Some (Number q) else None
  end.
Fixpoint parse_alphas (l : list (list Z)) : option (list number) :=
  match l with
  | [] => Some []
  | t :: r => match parse_alpha t with
              | Some a => match parse_alphas r with Some l => Some (a :: l) | None => None end
              | None => None
              end
  end.
(** owping.c 798-862: parse_percentile *)
Definition parse_percentile (s : list Z) : option (list number) :=
  let nalpha := S (length (filter (fun c => c =? 44) s)) in
  match parse_alphas (tokens [] s) with
  | Some l => if Nat.eqb (length l) nalpha then Some l else None
  | None => None
  end.
End Percentiles.

Inductive report := Aborted | NotAvailable | Bucket (b : Z).

(** owping.c 848: the percentile is stored as a float; stats.c 2228 and 1587-1616: it is divided by 100.0 and looked up; the assertion (1597) fails if it is no number from 0 to 1.
    [sorted]: the buckets with their numbers of samples *)
Definition reported (a : number) (sent : Z) (sorted : list (Z * Z)) : report :=
  match a with
  | NaN => Aborted
  | Number q =>
      let alpha := d_div (b32 (Qnum q) (Zpos (Qden q))) (d_int 100) in
      if d_lt (1, 1) alpha then Aborted
      else let (p, d) := d_mul alpha (d_int sent) in
           match percentile p d 0 sorted with Some b => Bucket b | None => NotAvailable end
  end.

(** ** Reordering *)

Inductive line :=
| Reordering (n count total : Z)   (* n-reordering = 100*count/total % *)
| NoReordering                     (* no reordering *)
| NoMore (n : Z)                   (* no n-reordering *)
| NotHandled (n : Z).              (* n-reordering not handled *)

(** the loops of stats.c 2250 and 2549: the counters up to the first that is 0, with their numbers from [n] on *)
Fixpoint leading (n : Z) (rn : list Z) : list (Z * Z) :=
  match rn with [] => [] | c :: r => if c =? 0 then [] else (n, c) :: leading (n + 1) r end.

(** stats.c 2249-2262: the lines of the summary; [rn]: the counters, [total]: the number of packets *)
Definition text_reordering (rn : list Z) (total : Z) : list line :=
  let l := leading 1 rn in
  let i := Z.of_nat (length l) in
  map (fun x => Reordering (fst x) (snd x) total) l ++
  [if i =? 0 then NoReordering else if i <? Z.of_nat (length rn) then NoMore (i + 1) else NotHandled (Z.of_nat (length rn) + 1)].

(** stats.c 2547-2557: the lines of the machine readable summary: n, and the number of n-reordered packets *)
Definition machine_reordering (rn : list Z) : list (Z * Z) :=
  let l := leading 1 rn in
  let j := Z.of_nat (length l) in
  l ++ (if (j =? 0) || (Z.of_nat (length rn) <=? j) then [(j + 1, 0)] else []).

(** ** Times *)

(** stats.c 2183-2186: "%03.0f" with ((float)tv_nsec)/MILLION: the digits behind the decimal point of the seconds *)
Definition milliseconds (nsec : Z) : Z :=
  let f := b32 nsec 1 in
  let q := b32 (fst f) (snd f * 1000000) in
  rne (fst q) (snd q).
(** printf: the decimal digits of a number below 10000, at least three *)
Definition printed (ms : Z) : list Z :=
  (if ms <? 1000 then [] else [ms / 1000]) ++ [ms / 100 mod 10; ms / 10 mod 10; ms mod 10].
Definition fraction_text (nsec : Z) : list Z := printed (milliseconds nsec).

(** ** Units *)

(** stats.c 1848-1888: OWPStatsScaleFactor with a buffer that was all 0 (stats.c 691, 741-742): factor and abbreviation; [None]: refused.  The factors are floats without rounding *)
Definition scale (c : Z) : option (Z * list Z) :=
  let c := lower c in
  if c =? 110 then Some (1000000000, [110; 115]) else
  if c =? 117 then Some (1000000, [117; 115]) else
  if c =? 109 then Some (1000, [109; 115]) else
  if c =? 115 then Some (1, []) else None.

(** ** Delays *)

(** arithm64.c OWPNum64ToDouble: a time as a double, in units of 2^-32 s; for the numbers that occur the fraction that is rounded is an integer *)
Definition dbl (x : Z) : Z := d_trunc (d_int x).
(** capi.c 1390-1398: OWPDelay: the difference of the two doubles *)
Definition delay (send recv : Z) : Z := let x := dbl recv - dbl send in Z.sgn x * dbl (Z.abs x).

(** stats.c 1763-1766 and 1207-1208: minimum and maximum, over all received packets *)
Definition extremes (timeout : Z) (delays : list Z) : Z * Z :=
  let inf := dbl (u64 (timeout + 1)) in (fold_left Z.min delays inf, fold_left Z.max delays (- inf)).
(** stats.c 1911-1929, 2301, 2314: what is reported; [None]: nan, or nothing in the machine readable summary *)
Definition reported_min (timeout : Z) (delays : list Z) : option Z :=
  let inf := dbl (u64 (timeout + 1)) in let m := fst (extremes timeout delays) in if inf <=? m then None else Some m.
Definition reported_max (timeout : Z) (delays : list Z) : option Z :=
  let inf := dbl (u64 (timeout + 1)) in let m := snd (extremes timeout delays) in if m <=? - inf then None else Some m.
