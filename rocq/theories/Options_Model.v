(** Model of two options of owping (owping/owping.c): -D (the DSCP of the test packets, 959-1170) and -i (the schedule, 869-957), and of what
    becomes of a DSCP in _OWPEndpointInit (owamp/endpoint.c 978-1054).  A string is the list of its characters without the final NUL. *)
From Coq Require Import ZArith List Bool QArith Qround.
From Verif Require Import Base Port_Model.
Import ListNotations.
Open Scope Z_scope.

(** tolower, toupper (C locale) *)
Definition lower (c : Z) : Z := if (65 <=? c) && (c <=? 90) then c + 32 else c.
Definition upper (c : Z) : Z := if (97 <=? c) && (c <=? 122) then c - 32 else c.

(** the value of a digit in bases up to 16 *)
Definition digit (c : Z) : Z :=
  if (48 <=? c) && (c <=? 57) then c - 48 else if (97 <=? lower c) && (lower c <=? 102) then lower c - 87 else 16.
Fixpoint digits (base acc : Z) (s : list Z) : Z * list Z :=
  match s with c :: r => if digit c <? base then digits base (base * acc + digit c) r else (acc, s) | [] => (acc, []) end.

(** strtoul(s,&end,0): the value and the string at end; without a conversion end = s *)
Definition strtoul0 (s : list Z) : Z * list Z :=
  let '(neg, t) := match skip_space s with 45 :: r => (true, r) | 43 :: r => (false, r) | t => (false, t) end in
  let val v := if 18446744073709551615 <? v then 18446744073709551615 else if neg then (- v) mod M64 else v in
  let conv base t := let '(v, r) := digits base 0 t in (val v, r) in
  match t with
  | 48 :: x :: h :: r => if (lower x =? 120) && (digit h <? 16) then conv 16 (h :: r) else conv 8 t
  | 48 :: _ => conv 8 t
  | c :: _ => if digit c <? 10 then conv 10 t else (0, s)
  | [] => (0, s)
  end.

(** strncasecmp(s,name,n) == 0 where n counts the NUL at the end of name *)
Definition same_name (s name : list Z) : bool := eqb_octets (map lower s) name.

Definition char (n : nat) (s : list Z) : Z := nth n s 0.

(** owping.c 1104-1162: parse_typeP from the first name on; the result is tosbyte and the rest of the string, [None] is the label FAILED *)
Definition parse_name (t : list Z) : option (Z * list Z) :=
  if same_name t [110; 111; 110; 101] then Some (0, skipn 4 t) else
  if same_name t [100; 101; 102; 97; 117; 108; 116] then Some (0, skipn 7 t) else
  if same_name t [100; 102] then Some (0, skipn 2 t) else
  if same_name t [101; 102] then Some (184, skipn 2 t) else
  if (upper (char 0 t) =? 67) && (upper (char 1 t) =? 83) then
    (if (48 <=? char 2 t) && (char 2 t <=? 55) then Some (32 * (char 2 t - 48), skipn 3 t) else None) else
  (* toupper(tstr[0] == 'A') *)
  if (char 0 t =? 65) && (upper (char 1 t) =? 70) then
    (if (49 <=? char 2 t) && (char 2 t <=? 52) && (49 <=? char 3 t) && (char 3 t <=? 51)
     then Some (Z.lor (32 * (char 2 t - 48)) (8 * (char 3 t - 48)), skipn 4 t) else None) else
  Some (0, t).

(** owping.c 959-1170: parse_typeP; the result is the value for the field typeP.  tspec is optarg (1392) *)
Definition parse_typeP (s : list Z) : option Z :=
  let t := skip_space s in
  let '(v, e) := strtoul0 s in
  match (match e with [] => if v <? 64 then Some (u8 (v * 4), []) else parse_name t | _ => parse_name t end) with
  | None => None
  | Some (tos, r) => match skip_space r with [] => Some (tos * 4194304) | _ => None end
  end.

(** endpoint.c 978-1054: the traffic class that _OWPEndpointInit sets for the packets; [Some None]: it is left as it is, [None]: the session
    is refused *)
Definition traffic_class (typeP : Z) : option (option Z) :=
  if typeP =? 0 then Some None else
  if negb (Z.land typeP (Z.lnot 1056964608) =? 0) then None else
  Some (Some (Z.shiftl (Z.land (u8 (typeP / 16777216)) 63) 2)).

(** ** Schedules *)

(** owamp.h: the two types of slots, with the value in units of 2^-32 s *)
Inductive slot := Exponential (mean : Z) | Fixed (offset : Z).

(** strtok(s,","): the parts between commas, without the empty ones *)
Fixpoint tokens (cur s : list Z) : list (list Z) :=
  match s with
  | [] => match cur with [] => [] | _ => [rev cur] end
  | c :: r => if c =? 44 then (match cur with [] => [] | _ => [rev cur] end) ++ tokens [] r else tokens (c :: cur) r
  end.

Section Schedule.

(** strtod(s,&end): the number and the string at end; [None]: no conversion *)
Variable strtod : list Z -> option (Q * list Z).

(** arithm64.c OWPDoubleToNum64; a value of 2^32 s or more has no defined result *)
Definition of_double (q : Q) : Z := if Qle_bool 0 q then Qfloor (q * inject_Z M32) else 0.

(** owping.c 911-942: one slot *)
Definition parse_slot (t : list Z) : option slot :=
  match strtod t with
  | None => None
  | Some (q, e) =>
    match e with
    | _ :: _ :: _ => None
    | [] => Some (Exponential (of_double q))
    | [c] => if lower c =? 101 then Some (Exponential (of_double q)) else if lower c =? 102 then Some (Fixed (of_double q)) else None
    end
  end.

Fixpoint parse_tokens (l : list (list Z)) : option (list slot) :=
  match l with
  | [] => Some []
  | t :: r => match parse_slot t with
              | Some s => match parse_tokens r with Some ss => Some (s :: ss) | None => None end
              | None => None
              end
  end.

(** owping.c 869-957: parse_slots; the loop never ends before the last token, as there are at most as many as commas plus one *)
Definition parse_slots (s : list Z) : option (list slot) :=
  let nslots := S (length (filter (fun c => c =? 44) s)) in
  match parse_tokens (tokens [] s) with
  | Some l => if Nat.eqb (length l) nslots then Some l else None
  | None => None
  end.

End Schedule.
