(** Model of OWPParsePortRange (capi.c 1707-1770) and of the choice of the test port in _OWPEndpointInit
    (endpoint.c 483-618).  All line numbers refer to /repo/owamp/owamp/owamp/. *)
From Coq Require Import ZArith List Bool.
From Verif Require Import Base Double.
Import ListNotations.
Open Scope Z_scope.

(** ** Port range strings.  A string is the list of its characters without the final NUL. *)

(** isspace (C locale) *)
Definition is_space (c : Z) : bool := ((9 <=? c) && (c <=? 13)) || (c =? 32).
Definition is_digit (c : Z) : bool := (48 <=? c) && (c <=? 57).
(** capi.c 1722, 1732, 1752: while(isspace(...)) *)
Fixpoint skip_space (s : list Z) : list Z :=
  match s with c :: r => if is_space c then skip_space r else s | [] => [] end.
(** the digits at the beginning, their value, and the rest *)
Fixpoint take_digits (acc : Z) (s : list Z) : Z * list Z :=
  match s with c :: r => if is_digit c then take_digits (10 * acc + (c - 48)) r else (acc, s) | [] => (acc, []) end.

(** strtol(s,&end,10) on a string that does not begin with white space: value (limited to the range of long) and the
    rest of the string at end; [None]: no conversion, end = s *)
Definition strtol (s : list Z) : option (Z * list Z) :=
  let '(neg, t) := match s with 45 :: r => (true, r) | 43 :: r => (false, r) | _ => (false, s) end in
  match t with
  | c :: _ =>
      if is_digit c then
        let '(v, r) := take_digits 0 t in
        Some (if neg then Z.max (- 9223372036854775808) (- v) else Z.min 9223372036854775807 v, r)
      else None
  | [] => None
  end.

(** capi.c 1722-1726, 1752-1756: one port number *)
Definition parse_port (s : list Z) : option (Z * list Z) :=
  match strtol (skip_space s) with
  | Some (v, r) => if (v <? 0) || (65535 <? v) then None else Some (v, r)
  | None => None
  end.

(** capi.c 1707-1770: OWPParsePortRange *)
Definition parse_port_range (s : list Z) : option (Z * Z) :=
  match parse_port s with
  | None => None
  | Some (low, r) =>
      match skip_space r with
      | [] => if low =? 0 then None else Some (low, low)
      | 45 :: r =>
          match parse_port r with
          | None => None
          | Some (high, _) => if high <? low then None else Some (low, high)
          end
      | _ => None
      end
  end.

(** ** Search for a free port *)

(** what bind() answers: success, EADDRINUSE, another error *)
Inductive bres := BindOK | BindInUse | BindOther.
(** outcome: bound, failed (with the ports tried, in order), still searching when the fuel is used up, undefined
    behaviour *)
Inductive sres := SBound (p : Z) (tried : list Z) | SFail (tried : list Z) | SRunning (tried : list Z) | SUB.

(** endpoint.c 570-571: the first port, from a random number r; [None]: the double does not fit into uint16_t,
    which is undefined *)
Definition range_of (low high : Z) : Z := u16 (high - low + 1).
Definition first_port (low high r : Z) : option Z :=
  let x := d_add (d_int low) (d_mul (d_div (d_int r) (d_int 4294967295)) (d_int (range_of low high))) in
  let t := d_trunc x in
  if t <? 65536 then Some t else None.

(** endpoint.c 606-610: the next port, in uint16_t *)
Definition next_port (low range p : Z) : Z := u16 (u16 (Z.rem (u16 (p - low) + 1) range) + low).

(** endpoint.c 580-612: the loop.  [pr]: low end of the range, if one is used; [bind k p]: answer of the k-th call, for port p *)
Fixpoint search (fuel : nat) (bind : nat -> Z -> bres) (pr : option Z) (range port : Z) (p : Z) (tried : list Z) : sres :=
  match fuel with
  | O => SRunning tried
  | S f =>
      match bind (length tried) p with
      | BindOK => SBound p (tried ++ [p])
      | BindOther => SFail (tried ++ [p])
      | BindInUse =>
          match pr with
          | None => SFail (tried ++ [p])
          | Some low =>
              if range =? 0 then SFail (tried ++ [p]) else
              let p' := next_port low range p in
              if p' =? port then SFail (tried ++ [p]) else search f bind pr range port p' (tried ++ [p])
          end
      end
  end.

(** endpoint.c 509-618.  [port]: port of the local address; [portrange]: the configured range; [r]: random number.
    (The failure of the random number generator is not modelled.) *)
Definition choose_port (fuel : nat) (twoway server : bool) (port : Z) (portrange : option (Z * Z)) (r : Z) (bind : nat -> Z -> bres) : sres :=
  let port :=
    match portrange with
    | Some (low, high) => if twoway && server && negb (port =? 0) && ((port <? low) || (high <? port)) then 0 else port
    | None => port
    end in
  let go portrange range port :=
    match portrange with
    | Some (low, high) => if high <? low then SFail [] else search fuel bind (Some low) range port port []
    | None => search fuel bind None range port port []
    end in
  if negb (port =? 0) then
    if twoway && server then
      let '(low, high) := match portrange with Some lh => lh | None => (port, 65535) end in
      go (Some (low, high)) (range_of low high) port
    else go portrange 0 port
  else
    match portrange with
    | None => go None 0 0
    | Some (low, high) =>
        match first_port low high r with
        | Some p => go (Some (low, high)) (range_of low high) p
        | None => SUB
        end
    end.
