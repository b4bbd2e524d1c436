(** Specification vocabulary for session files. *)
From Coq Require Import ZArith List Bool.
From Verif Require Import Time_Model Sched_Model Wire_Model Wire_Spec File_Model.
Import ListNotations.
Open Scope Z_scope.

(** a header whose members are within their types, with as many slots as announced; [1 <= npackets]
    and [1 <= nslots] because such a request cannot be made otherwise *)
Definition header_ok (h : header) (slots : list slot) : Prop :=
  sa_ok (hd_sender h) /\ sa_ok (hd_receiver h) /\ sa_family (hd_sender h) = sa_family (hd_receiver h) /\
  sa_family (hd_sender h) <> AF_OTHER /\ octet_string 16 (hd_sid h) /\ tspec_ok (hd_spec h) /\
  1 <= ts_npackets (hd_spec h) /\ ts_slots (hd_spec h) = Some slots /\ Forall slot_ok slots /\
  1 <= ts_nslots (hd_spec h) /\ ts_nslots (hd_spec h) = Z.of_nat (length slots) /\
  (hd_twoway h = false -> hd_csender h = true \/ hd_creceiver h = true) /\
  0 <= hd_next h < 2^32 /\ 0 <= hd_nskip h < 2^32 /\ 0 <= hd_ndata h < 2^32.

(** size of a data record of a one-way or two-way session *)
Definition rec_len (twoway : bool) : Z := if twoway then 50 else 25.

(** [n] records of [len] octets from position [pos] on *)
Definition nth_record (f : list Z) (pos len i : nat) : list Z := octs_at f (pos + len * i) len.

(** the application function [proc] called on each element in order, until it returns non-zero:
    elements visited, last return value, final state *)
Fixpoint visit {R St : Type} (proc : R -> St -> Z * St) (l : list R) (s : St) : list R * Z * St :=
  match l with
  | [] => ([], 0, s)
  | r :: t =>
      let (rc, s1) := proc r s in
      if rc =? 0 then let '(v, rc', s2) := visit proc t s1 in (r :: v, rc', s2) else ([r], rc, s1)
  end.

(** the same file except for the octets from..to-1 *)
Definition only_changes (f g : list Z) (changed : nat -> Prop) : Prop :=
  length f = length g /\ forall i, ~ changed i -> nth_error f i = nth_error g i.

(** the successive records of [len] octets from [pos] on that are there and can be decoded, up to
    [n]; if fewer than [n], the next one is missing or malformed *)
Definition readable {R : Type} (dec : list Z -> option R) (f : list Z) (pos len n : nat) (l : list R) : Prop :=
  (length l <= n)%nat /\
  (forall i r, nth_error l i = Some r -> (pos + len * S i <= length f)%nat /\ dec (nth_record f pos len i) = Some r) /\
  ((length l < n)%nat -> (length f < pos + len * S (length l))%nat \/ dec (nth_record f pos len (length l)) = None).

(** a session file as the receiver leaves it after the clean-up: complete header of [odata] octets
    that announces [ndata] one-way records (and no skip records yet), followed by exactly these *)
Definition cleaned (f : list Z) (odata ndata : Z) : Prop :=
  octs_at f 0 4 = [79; 119; 65; 0] /\ field f 4 4 = 3 /\ field f 8 4 = 2 /\ field f 16 4 = 0 /\ field f 20 4 = ndata /\
  field f 24 8 = 0 /\ field f 32 8 = odata /\ 152 <= odata < 2^62 /\ Z.of_nat (length f) = odata + 25 * ndata /\ 0 <= ndata < 2^32 /\
  exists p, decode_preamble false (octs_at f 40 112) 112 false 28 = PreOK p.

(** the changes that can be made to a header in place, and their meaning *)
Inductive update := UFinished (fin next : Z) | UNSkips (n : Z) | UNData (n : Z).
Definition update_file (u : update) (f : list Z) : option (list Z) :=
  match u with UFinished fin next => write_finished fin next f | UNSkips n => write_nskips n f | UNData n => write_ndata n f end.
Definition update_ok (u : update) : Prop :=
  match u with UFinished fin next => 0 <= fin <= 2 /\ 0 <= next < 2^32 | UNSkips n => 0 <= n < 2^32 | UNData n => 0 <= n < 2^32 end.
Definition update_header (u : update) (h : inithdr) : inithdr :=
  match u with
  | UFinished fin next => mkIH (ih_version h) (ih_recsize h) (ih_hdrlen h) fin next (ih_nskip h) (ih_ndata h) (ih_oskip h) (ih_odata h) (ih_size h) (ih_header h)
  | UNSkips n => mkIH (ih_version h) (ih_recsize h) (ih_hdrlen h) (ih_finished h) (ih_next h) n (ih_ndata h)
       (ih_odata h + (ih_recsize h * ih_ndata h) mod 2^32) (ih_odata h) (ih_size h) (ih_header h)
  | UNData n => mkIH (ih_version h) (ih_recsize h) (ih_hdrlen h) (ih_finished h) (ih_next h) (ih_nskip h) n (ih_oskip h) (ih_odata h) (ih_size h) (ih_header h)
  end.
Fixpoint updates (us : list update) (f : list Z) : option (list Z) :=
  match us with [] => Some f | u :: r => match update_file u f with Some g => updates r g | None => None end end.
(** the octets of the fields an update may write *)
Definition update_octets (u : update) (i : nat) : Prop :=
  match u with
  | UFinished _ _ => (8 <= i < 16)%nat
  | UNSkips _ => (16 <= i < 20)%nat \/ (24 <= i < 32)%nat
  | UNData _ => (20 <= i < 24)%nat
  end.
