(** Model of the clean-up of session files: api.c 885-1384 (_OWPCleanDataRecs, GetMaxRecv) and 1404-1742
    (_OWPCleanUpSessions) for the one-way files it is used on (record size at most 25).  A file is the list of its octets.
    Simplifications: system calls do not fail; the temporary file starts empty; locks are not modelled.
    I2CopyFile (I2util, not part of the repository) is taken to make the target equal to the given number of octets of the source
    (all of them for 0), both given as descriptors.  Octets that were handed to fwrite but are still in the
    buffer of the stream are therefore not copied: [flushed k] of the first k octets written to the temporary stream
    have reached its file.
    All line numbers refer to /repo/owamp/owamp/owamp/api.c. *)
From Coq Require Import ZArith List Bool.
From Verif Require Import Base Arith_Model Time_Model Sched_Model Wire_Model File_Model Double.
Import ListNotations.
Open Scope Z_scope.

(** fread of one record at position [pos] and _OWPDecodeDataRecord *)
Definition read_rec (h : inithdr) (pos : Z) (f : list Z) : option (list Z * datarec) :=
  if pos <? 0 then None else
  match fread (Z.to_nat pos) (Z.to_nat (ih_recsize h)) f with
  | None => None
  | Some b => match decode_datarec (ih_version h) b with Some r => Some (b, r) | None => None end
  end.

(** 1054-1059, 1127-1132: receive time, or the presumed one of a lost packet *)
Definition rec_time (timeout : Z) (r : datarec) : Z :=
  if is_lost r then OWPNum64Add (owptime (r_send r)) timeout else owptime (r_recv r).

(** arithm64.c 341-347: OWPNum64ToDouble *)
Definition num64_double (x : Z) : Z * Z := d_div (d_int x) (d_int M32).

(** 1073-1090: the next index to look at.  [None]: the double does not fit into uint32_t, which is undefined. *)
Definition interpolate (thresh lowR highR lowI highI : Z) : option Z :=
  let range := OWPNum64Sub highR lowR in
  if range =? 0 then Some (u32 (highI - lowI) / 2) else
  let portion := OWPNum64Sub thresh lowR in
  let m := d_trunc (d_add (d_int lowI) (d_div (d_mul (num64_double portion) (d_int (u32 (highI - lowI)))) (num64_double range))) in
  if m <? M32 then Some (if m =? lowI then u32 (m + 1) else m) else None.

Inductive found := FoundAt (i : Z) | FRead | FRunning | FUndefined.

(** 1068-1141: the interpolation search.  [FRead]: a record could not be read, [FRunning]: no result after [fuel] passes. *)
Fixpoint search (fuel : nat) (h : inithdr) (f : list Z) (timeout thresh lowI lowR highI highR : Z) : found :=
  match fuel with
  | O => FRunning
  | S k =>
      if 1 <? u32 (highI - lowI) then
        match interpolate thresh lowR highR lowI highI with
        | None => FUndefined
        | Some midI =>
            match read_rec h (ih_odata h + u32 (midI * ih_recsize h)) f with
            | None => FRead
            | Some (_, r) =>
                let midR := rec_time timeout r in
                if midR <? thresh then search k h f timeout thresh midI midR highI highR
                else search k h f timeout thresh lowI lowR midI midR
            end
        end
      else FoundAt lowI
  end.

(** 1009-1019: start time plus the first [n] delays *)
Fixpoint sum_delays (start : Z) (delta : nat -> Z) (n : nat) : Z :=
  match n with O => start | S k => OWPNum64Add (sum_delays start delta k) (delta k) end.

(** 1021-1065: threshold, first record, and the search *)
Definition find_start (fuel : nat) (h : inithdr) (f : list Z) (start timeout : Z) (delta : nat -> Z) (next stop num : Z) : found :=
  let t := sum_delays start delta (Z.to_nat next) in
  let t := if t <? stop then t else stop in
  let thresh := OWPNum64Sub t (OWPNum64Mult timeout (OWPULongToNum64 2)) in
  match read_rec h (ih_odata h) f with
  | None => FRead
  | Some (_, r) =>
      let lowR := rec_time timeout r in
      if lowR <? thresh then search fuel h f timeout thresh 0 lowR num stop else FoundAt 0
  end.

(** 1164-1310: the pass over [n] records from position [pos] on.  [j]: index of the current one.  [w]: once a record has been
    dropped, the length of the part of the file copied, and the octets written behind it.  Result: number of records,
    max_recv, w. *)
Fixpoint sweep (h : inithdr) (f : list Z) (next thresh : Z) (n : nat) (j pos num maxr : Z) (w : option (Z * list Z)) : option (Z * Z * option (Z * list Z)) :=
  match n with
  | O => Some (num, maxr, w)
  | S k =>
      match read_rec h pos f with
      | None => None
      | Some (b, r) =>
          if (next <=? r_seq r) && negb (is_lost r) then None else
          if (r_seq r <? next) && (owptime (r_send r) <=? thresh) then
            sweep h f next thresh k (j + 1) (pos + ih_recsize h) num (Z.max (r_seq r) maxr)
              (match w with Some (l, x) => Some (l, x ++ b) | None => None end)
          else
            sweep h f next thresh k (j + 1) (pos + ih_recsize h) (u32 (num - 1)) maxr
              (match w with Some _ => w | None => Some (ih_odata h + u32 (j * ih_recsize h), []) end)
      end
  end.

(** 1250-1254, 1318-1327: the file after the temporary file was copied back *)
Definition copy_back (flushed : nat -> nat) (f : list Z) (w : option (Z * list Z)) : list Z :=
  match w with
  | None => f
  | Some (l, x) => firstn (Z.to_nat l) f ++ firstn (flushed (length x)) x
  end.

Inductive cleaned_up := CleanOK (f : list Z) (max_recv off_start : Z) | CleanFail | CleanRunning | CleanUndefined.

(** 885-1345: _OWPCleanDataRecs.  [stop]: time stamp of the stop; start, timeout, npackets of the test and its delays. *)
Definition clean_data_recs (flushed : nat -> nat) (fuel : nat) (f : list Z) (start timeout npackets : Z) (delta : nat -> Z) (next stop : Z) : cleaned_up :=
  match read_initial f with
  | None => CleanFail
  | Some h =>
      let toff := ih_size h - ih_odata h in
      if negb (Z.rem toff (ih_recsize h) =? 0) then CleanFail else
      let num := u32 (Z.quot toff (ih_recsize h)) in
      let finish f num maxr off := match write_ndata num f with Some f' => CleanOK f' maxr off | None => CleanFail end in
      if num =? 0 then finish f 0 0 0 else
      let next := if next =? 4294967295 then npackets else next in
      if npackets <? next then CleanFail else
      match find_start fuel h f start timeout delta next stop num with
      | FRead => CleanFail
      | FRunning => CleanRunning
      | FUndefined => CleanUndefined
      | FoundAt lowI =>
          let off := ih_odata h + u32 (lowI * ih_recsize h) in
          match sweep h f next (OWPNum64Sub stop timeout) (Z.to_nat (num - lowI)) lowI off num 0 None with
          | None => CleanFail
          | Some (num', maxr, w) => finish (copy_back flushed f w) num' maxr off
          end
      end
  end.

(** ** Sessions whose control connection was lost *)

(** 1346-1384: GetMaxRecv *)
Record maxrecv := mkMR { mr_found : bool; mr_index : Z; mr_max : Z; mr_badlost : Z; mr_index_badlost : Z }.
Definition get_max_recv (r : datarec) (m : maxrecv) : Z * maxrecv :=
  let '(fd, mx, bl, ib) :=
    if negb (is_lost r) then (true, Z.max (mr_max m) (r_seq r), mr_badlost m, mr_index_badlost m)
    else if (mr_max m <? r_seq r) && (mr_badlost m <? mr_max m) then (mr_found m, mr_max m, r_seq r, mr_index m)
    else (mr_found m, mr_max m, mr_badlost m, mr_index_badlost m) in
  (0, mkMR fd (u32 (mr_index m + 1)) mx bl ib).

(** 1568-1692: drop the records above max_recv among the last [n] *)
Fixpoint drop_above (h : inithdr) (f : list Z) (max : Z) (n : nat) (j pos num : Z) (w : option (Z * list Z)) : option (Z * option (Z * list Z)) :=
  match n with
  | O => Some (num, w)
  | S k =>
      match read_rec h pos f with
      | None => None
      | Some (b, r) =>
          if max <? r_seq r then
            drop_above h f max k (j + 1) (pos + ih_recsize h) (u32 (num - 1))
              (match w with Some _ => w | None => Some (ih_odata h + u32 (j * ih_recsize h), []) end)
          else drop_above h f max k (j + 1) (pos + ih_recsize h) num (match w with Some (l, x) => Some (l, x ++ b) | None => None end)
      end
  end.

(** 1430-1725: the body of the loop of _OWPCleanUpSessions for one received session *)
Definition clean_up_session (flushed : nat -> nat) (fuel : nat) (f : list Z) (start timeout npackets : Z) (delta : nat -> Z) (stop : Z) : cleaned_up :=
  match clean_data_recs flushed fuel f start timeout npackets delta 4294967295 stop with
  | CleanOK f max_recv off =>
      match read_initial f with
      | None => CleanFail
      | Some h =>
          (* 1566-1725 *)
          let rest f max off :=
            let j := u32 (Z.quot (off - ih_odata h) (ih_recsize h)) in
            match drop_above h f max (Z.to_nat (ih_ndata h - j)) j off (ih_ndata h) None with
            | None => CleanFail
            | Some (num, w) =>
                match write_ndata num (copy_back flushed f w) with
                | None => CleanFail
                | Some f => match write_finished FIN_INCOMPLETE 0 f with Some f => CleanOK f max off | None => CleanFail end
                end
            end in
          if max_recv =? 0 then
            match (if ih_odata h <? 0 then None else
                   parse_records get_max_recv (ih_version h) (Z.to_nat (ih_odata h)) (Z.to_nat (ih_ndata h)) f (mkMR false 0 0 0 0)) with
            | Some (true, m) =>
                if negb (mr_found m) then
                  match write_ndata 0 (firstn (Z.to_nat (ih_odata h)) f) with Some f => CleanOK f 0 off | None => CleanFail end
                else rest f (mr_max m) (ih_odata h + u32 (mr_index_badlost m * ih_recsize h))
            | _ => CleanFail
            end
          else rest f max_recv off
      end
  | x => x
  end.
