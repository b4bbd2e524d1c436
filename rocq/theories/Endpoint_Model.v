(** Model of the resources of an endpoint of a session: what _OWPEndpointInit (endpoint.c 374-1090), reopen_datafile (241-265), anon_file (313-358) and _OWPEndpointInitHook
    (3795-4034) acquire, and what EndpointClear (133-168) and EndpointFree (186-223) give back; and of three numbers that _OWPEndpointInit computes: how many records for packets
    (675-680) and for skips (910-911) are allocated, and the delay at the end of a session (1072-1079).
    Line numbers refer to /repo/owamp/owamp/owamp/endpoint.c. *)
From Coq Require Import ZArith List Bool.
From Verif Require Import Base Arith_Model Double Clean_Model Size_Model.
Import ListNotations.
Open Scope Z_scope.

(** ** Resources *)

(** the record itself (72); the buffer for packets (459); the socket (473); the first block of records (682) and the hash table (701); the session file opened by the application (725);
    the duplicated descriptor (250) and the stream on it (256); the buffer of the stream (774); the name (333), the descriptor (345) of the file for skips; the first block of skips (913);
    the context for HMACs (3875) *)
Inductive res := RRec | RPayload | RSock | RLost | RHash | RUser | RDup | RData | RFbuff | RPath | RSkipfd | RSkip | RHmac.
Definition res_eqb (a b : res) : bool :=
  match a, b with
  | RRec, RRec | RPayload, RPayload | RSock, RSock | RLost, RLost | RHash, RHash | RUser, RUser | RDup, RDup | RData, RData | RFbuff, RFbuff | RPath, RPath | RSkipfd, RSkipfd
  | RSkip, RSkip | RHmac, RHmac => true
  | _, _ => false
  end.
Inductive event := Got (r : res) | Gone (r : res).

(** a step: something that can fail and acquires nothing; that acquires; the string is freed (351); fdopen (256): the descriptor now belongs to the stream *)
Inductive step := Try | Get (r : res) | DropPath | Turn.

(** what the caller asks for: 425, 426, 718, 752, cntrl->server, 3818 *)
Record want := Want { send : bool; twoway : bool; server : bool; given : bool; buffered : bool; crypt : bool }.

(** 650, 714: two-way client or one-way receiver *)
Definition keeps (c : want) : bool := (twoway c && negb (server c)) || (negb (twoway c) && negb (send c)).

(** the steps of _OWPEndpointInit, in order: 408-420 address; 422; 436 size; 459; 473; 480-537 interface, family, random number; 596 bind; 632-650; then by role *)
Definition init_steps (c : want) : list step :=
  [Try; Get RRec; Try; Get RPayload; Get RSock; Try; Try; Try; Try; Try] ++
  (if keeps c then [Get RLost; Get RHash] ++ (if given c then [] else [Get RUser]) ++ [Get RDup; Turn] ++ (if buffered c then [Try; Get RFbuff] else []) else []) ++
  (if twoway c || negb (send c) then [Try; Try; Try] else []) ++                                                     (* 781-834 *)
  (if negb (twoway c) && send c then [Get RPath; Try; Get RSkipfd; Try; DropPath; Get RSkip] else []) ++              (* 839-923 *)
  (if twoway c || send c then [Try; Try; Try; Try] else []).                                                         (* 926-1053 *)
(** the steps of _OWPEndpointInitHook after the keys: 3911-3981, 4001-4014 *)
Definition hook_steps : list step := [Try; Try; Try; Try].

Definition holds (held : list res) (r : res) : bool := existsb (res_eqb r) held.
(** the events of a life so far, latest first, and what is held *)
Definition life := (list event * list res)%type.
Definition acquire (r : res) (l : life) : life := (Got r :: fst l, r :: snd l).
Definition release (l : life) (r : res) : life := if holds (snd l) r then (Gone r :: fst l, filter (fun x => negb (res_eqb r x)) (snd l)) else l.

(** 133-168, 186-223: each member is given back if it is set, and reset *)
Definition clear_order := [RSock; RPayload; RHmac; RHash; RLost; RSkip].
Definition endpoint_clear (l : life) : life := fold_left release clear_order l.
Definition drop (l : life) (r : res) : life := (Gone r :: fst l, filter (fun x => negb (res_eqb r x)) (snd l)).
(** the record itself is freed without a question (220) *)
Definition endpoint_free (l : life) : life := drop (fold_left release [RSkipfd; RData; RFbuff; RUser] (endpoint_clear l)) RRec.
(** 354-357: in anon_file the string and the descriptor are given back after a failure *)
Definition anon_error (l : life) : life := if holds (snd l) RPath then release (release l RPath) RSkipfd else l.

(** the steps, from number [i]; [false]: one failed *)
Fixpoint steps (fail : nat -> bool) (l : list step) (i : nat) (s : life) : bool * life :=
  match l with
  | [] => (true, s)
  | x :: l =>
      if match x with DropPath => false | _ => fail i end then (false, s) else
      steps fail l (S i)
        match x with
        | Try => s
        | Get r => acquire r s
        | DropPath => release s RPath
        | Turn => (Got RData :: Gone RDup :: fst s, RData :: filter (fun x => negb (res_eqb RDup x)) (snd s))
        end
  end.

(** 1086-1088: _OWPEndpointInit; when nothing was allocated yet (408-423) EndpointFree is not called *)
Definition init (fail : nat -> bool) (c : want) : bool * life :=
  match steps fail (init_steps c) 0 ([], []) with
  | (true, s) => (true, s)
  | (false, s) => (false, if holds (snd s) RRec then endpoint_free (anon_error s) else s)
  end.
(** 3795-4034, in the calling process; the result: whether the session still has the endpoint (end_data does not point to NULL).  A failure before the signals (3875) only returns;
    a later one frees the endpoint and resets end_data; success clears (4021) *)
Definition hook (fail : nat -> bool) (c : want) (s : life) : bool * life :=
  if crypt c && fail 0%nat then (true, s) else
  match steps fail hook_steps 1 (if crypt c then acquire RHmac s else s) with
  | (true, s) => (true, endpoint_clear s)
  | (false, s) => (false, endpoint_free s)
  end.
(** the whole life: in the end the session is freed, and with it the endpoint if there is one (api.c 274-276, 4245-4256) *)
Definition whole (fail1 fail2 : nat -> bool) (c : want) (hooked : bool) : life :=
  match init fail1 c with
  | (false, s) => s
  | (true, s) => if hooked then match hook fail2 c s with (true, s) => endpoint_free s | (false, s) => s end else endpoint_free s
  end.

(** ** Numbers *)

(** 675-680: ep->numalist is a uint32_t; [None]: the double does not fit, which is undefined *)
Definition num_records (delays : list Z) (loss : Z) : option Z :=
  let v := d_trunc (d_mul (d_mul (packet_rate delays) (num64_double loss)) (d_int 2)) in
  if v <? M32 then Some (Z.max v 100) else None.

(** 910-911: .10 is the double 3602879701896397 / 2^55 *)
Definition num_skips (npackets : Z) : Z := Z.max (d_trunc (d_mul (3602879701896397, 2^55) (d_int npackets))) 100.

(** 1072-1079: a finite double that is not negative is n / 2^k or n * 2^k with n < 2^53 *)
Inductive dbl := Frac (n k : Z) | Whole (n k : Z) | Inf.
Definition is_dbl (x : dbl) : Prop := match x with Frac n k => 0 <= n < 2^53 /\ 0 <= k <= 1074 | Whole n k => 0 <= n < 2^53 /\ 0 <= k <= 971 | Inf => True end.
(** time_t is 64 bits; [None]: conversion of a value that does not fit, which is undefined.
    The subtraction is exact: the difference is smaller than the number and a multiple of the same power of two. *)
Definition end_delay (x : dbl) : option (Z * Z) :=
  match x with
  | Frac n k => Some (n / 2^k, d_trunc (d_mul (n mod 2^k, 2^k) (d_int 1000000000)))
  | Whole n k => if n * 2^k <? 2^63 then Some (n * 2^k, 0) else None
  | Inf => None
  end.
(** owampd.c 1161-1178: what strtod gave is accepted; [true]: it was a number and there was no ERANGE (none for "inf") *)
Definition delay_accepted (x : dbl) : bool := match x with Frac n _ | Whole n _ => 0 <=? n | Inf => true end.
