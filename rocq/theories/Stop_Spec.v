(** Specification vocabulary for the Stop-Sessions exchange. *)
From Coq Require Import ZArith List Bool Permutation.
From Verif Require Import Base Sched_Model Wire_Model Wire_Spec Control_Model Control_Spec Stop_Model.
Import ListNotations.
Open Scope Z_scope.

(** the sessions of a list for which this side is the sender, and those for which it receives *)
Definition is_sender (t : tsess) : bool := match t_end t with Some e => e_send e | None => false end.
Definition is_receiver (t : tsess) : bool := match t_end t with Some e => negb (e_send e) | None => false end.
Definition senders (ts : list tsess) : list tsess := filter is_sender ts.
Definition receivers (ts : list tsess) : list tsess := filter is_receiver ts.
Definition all_open (ts : list tsess) : Prop := Forall (fun t => t_end t <> None) ts.

(** A sender's report: next sequence number and number of ranges (4 octets each), then the ranges
    (first and last number, 4 octets each). *)
Definition report_next (f : list Z) : Z := field f 0 4.
Definition report_count (f : list Z) : Z := field f 4 4.
Definition range_first (f : list Z) (k : nat) : Z := field f (8 + 8 * k) 4.
Definition range_last (f : list Z) (k : nat) : Z := field f (12 + 8 * k) 4.
Definition report (f : list Z) : Prop :=
  Forall (fun b => 0 <= b < 256) f /\
  Z.of_nat (length f) = 8 + 8 * report_count f /\
  forall k, Z.of_nat k < report_count f -> range_first f k <= range_last f k.

(** a session that is ready to be reported *)
Definition reported (t : tsess) : Prop :=
  length (t_sid t) = 16%nat /\
  match t_end t with
  | Some e => e_send e = true -> e_size e = Z.of_nat (length (e_skips e)) /\ report (e_skips e)
  | None => False
  end.

(** what has to arrive in the file of the session that [t] sent *)
Definition arrived (t : tsess) : stored :=
  let f := match t_end t with Some e => e_skips e | None => [] end in
  mkStored (t_sid t) (report_next f) (skipn 8 f) (Some (report_count f)).

(** a session whose endpoint process ends well: a sender leaves a complete report of less than 2^32
    octets *)
Definition ends_well (t : tsess) : Prop :=
  length (t_sid t) = 16%nat /\
  match t_end t with
  | Some e => e_send e = true ->
      e_sev e = ErrOK /\ e_exit e = CNTRL_ACCEPT /\ e_file_ok e = true /\ report (e_skips e) /\ Z.of_nat (length (e_skips e)) < 2^32
  | None => False
  end.
(** the rest of the world gives no trouble *)
Definition world_well (w : stopworld) : Prop :=
  sw_recv w = ErrOK /\ sw_aval w = CNTRL_ACCEPT /\ sw_clean w = true /\ sw_free w = ErrOK.
