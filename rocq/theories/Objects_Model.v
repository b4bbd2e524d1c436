(** The objects that the library acquires for a context, its control connections and their sessions,
    and the order in which it gives them back (owamp/context.c, owamp/capi.c, owamp/sapi.c,
    owamp/protocol.c, owamp/api.c).  Simplified: an endpoint is one object (what is inside it is
    C147), the values in the hash tables are not followed (C99), nor descriptors (C131). *)
From Coq Require Import List Bool Arith.
Import ListNotations.

(** Kinds of objects.  Of the context: OWPContextRec, error handle, hash table, source of random
    numbers (context.c 74-178).  Of a connection: OWPControlRec, hash table, two HMAC contexts, the
    addresses, the copies of the name of the interface, the pass phrase (context.c 332-400, capi.c
    168-235, 480-600).  Of a session: OWPTestSessionRec, the addresses, the schedule, the slots if
    they do not fit into the record, the endpoint, and what the policy of the application granted
    ("closure") (api.c 170-230, capi.c 955-1250, sapi.c 595-915). *)
Inductive kind :=
| Ctx | CtxErr | CtxTable | CtxRand
| Cntrl | CTable | SendH | RecvH | Remote | Local | Iface (n : nat) | Pf
| Rec | Sender | Receiver | Sctx | Slots | Endp | Grant.

Definition kind_eq_dec (a b : kind) : {a = b} + {a <> b}.
Proof. decide equality. apply Nat.eq_dec. Defined.

Definition mem (k : kind) (w : list kind) : bool :=
  if in_dec kind_eq_dec k w then true else false.

(** An object: its kind and the number of what it belongs to (the context is number 0; connections
    and sessions are numbered as they come). *)
Definition obj := (kind * nat)%type.

(** What is observed: an object is acquired or given back; the policy of the application is told
    (OWPTestCompleteHook, api.c 277-279) that a session is over, with which acceptance value. *)
Inductive event :=
| Get (o : obj)
| Give (o : obj)
| Told (i : nat) (v : nat).

(** OWP_CNTRL_* (owamp.h 309-317), the invalid value -1 written as 255 *)
Definition CNTRL_ACCEPT := 0.
Definition CNTRL_REJECT := 1.
Definition CNTRL_FAILURE := 2.
Definition CNTRL_INVALID := 255.

(** ** Steps that may fail

    A sequence of C statements "if(!(x = ...)) goto error;".  The oracle [fails n] says whether
    the n-th step fails. *)
Inductive step :=
| Need                    (* can fail, acquires nothing *)
| Take (k : kind)         (* acquires the object, or goes to the error label *)
| Want (k : kind)         (* acquires the object or carries on without it *)
| Have (k : kind)         (* to the error label if the object was not acquired *)
| TakeSlots               (* api.c 205-222: if the slots cannot be allocated the record is freed *)
| Drop (k : kind)         (* gives the object back if there is one *)
| Policy (closure : bool) (* _OWPCallCheckTestPolicy(..,&tsession->closure,..): context.c 866-892; the
                             application may set the closure whatever it answers *)
| Hook                    (* _OWPEndpointInitHook: on failure it frees the endpoint and clears
                             tsession->endpoint (endpoint.c 3912-3992, 4025-4033) *)
| Fail.                   (* goto error *)

Definition one (s : step) (i : nat) (fail : bool) (w : list kind) : list kind * list event * bool :=
  match s with
  | Need => (w, [], negb fail)
  | Take k => if fail then (w, [], false) else (k :: w, [Get (k, i)], true)
  | Want k => if fail then (w, [], true) else (k :: w, [Get (k, i)], true)
  | Have k => (w, [], mem k w)
  | TakeSlots => if fail then (remove kind_eq_dec Rec w, [Give (Rec, i)], false)
                 else (Slots :: w, [Get (Slots, i)], true)
  | Drop k => if mem k w then (remove kind_eq_dec k w, [Give (k, i)], true) else (w, [], true)
  | Policy c => if c then (Grant :: w, [Get (Grant, i)], negb fail) else (w, [], negb fail)
  | Hook => if fail then (remove kind_eq_dec Endp w, [Give (Endp, i)], false) else (w, [], true)
  | Fail => (w, [], false)
  end.

(** the steps one after the other: what is held, what happened, whether the end was reached *)
Fixpoint build (st : list step) (i : nat) (fails : nat -> bool) (n : nat) (w : list kind)
  : list kind * list event * bool :=
  match st with
  | [] => (w, [], true)
  | s :: r =>
    let '(w1, es, go) := one s i (fails n) w in
    if go then
      let '(w2, es2, b) := build r i fails (S n) w1 in (w2, es ++ es2, b)
    else (w1, es, false)
  end.

Definition give (k : kind) (i : nat) (w : list kind) : list event :=
  if mem k w then [Give (k, i)] else [].

(** ** Sessions *)

(** api.c 250-297: _OWPTestSessionFree (the record is unlinked by the callers below) *)
Definition session_free (i : nat) (w : list kind) (v : nat) : list event :=
  give Endp i w
  ++ (if mem Grant w then [Told i v] else [])
  ++ give Sender i w ++ give Receiver i w
  ++ give Sctx i w
  ++ give Slots i w
  ++ [Give (Rec, i)].

(** The arguments of OWPSessionRequest and the connection it is called on: two-way; the server
    configures the sender / the receiver; the application passes a sender / receiver address; the
    slots do not fit into the buffer of the record (more than _OWPSLOT_BUFSIZE); the application's
    policy sets a closure. *)
Record request := {
  q_twoway : bool; q_csend : bool; q_crecv : bool;
  q_sgiven : bool; q_rgiven : bool; q_big : bool; q_closure : bool
}.

(** capi.c 934-1228: OWPSessionRequest up to the label error *)
Definition request_steps (q : request) : list step :=
  [Need]                                                                  (* 934-943 *)
  ++ (if q_rgiven q then [] else if q_crecv q then [Fail] else [Take Receiver])   (* 957-970 *)
  ++ [Need]                                                               (* 971-975 *)
  ++ (if q_sgiven q then [] else if q_csend q then [Fail] else [Take Sender])     (* 980-993 *)
  ++ [Need; Need; Need; Need]                                             (* 994-1054 *)
  ++ [Take Rec] ++ (if q_big q then [TakeSlots] else [])                  (* 1069-1071 *)
  ++ (if q_twoway q || q_crecv q then                                     (* 1095 *)
        (if q_csend q then [] else [Take Endp])                           (* 1099-1107 *)
        ++ [Need; Take Sctx]                                              (* 1124-1144 *)
        ++ (if q_csend q then [] else [Policy (q_closure q); Hook])       (* 1150-1171 *)
      else
        [Need; Take Sctx; Policy (q_closure q); Take Endp]                (* 1178-1206 *)
        ++ (if q_csend q then [Need] else [Fail])                         (* 1212-1234 *)
        ++ [Hook]).                                                       (* 1235-1237 *)

(** the addresses that the application hands over: they belong to the session from now on *)
Definition handed (q : request) : list kind :=
  (if q_sgiven q then [Sender] else []) ++ (if q_rgiven q then [Receiver] else []).

(** what is given back at the label error: capi.c 1273-1284 and protocol.c 1558-1564, sapi.c
    790-792, 910-912 *)
Definition request_error (i : nat) (w : list kind) (v : nat) : list event :=
  if mem Rec w then session_free i w v
  else give Receiver i w ++ give Sender i w.

Definition session_request (q : request) (i : nat) (fails : nat -> bool)
  : option (list kind) * list event :=
  let '(w, es, ok) := build (request_steps q) i fails 0 (handed q) in
  let es := map (fun k => Get (k, i)) (handed q) ++ es in
  if ok then (Some w, es) else (None, es ++ request_error i w CNTRL_FAILURE).

(** protocol.c 1317-1567: _OWPReadTestRequest: read, decode, scopes; the addresses (not checked until
    the record is allocated); the slots (not checked until they have been read) *)
Definition read_steps (oneway big : bool) : list step :=
  [Need; Need; Need; Need; Want Sender; Want Receiver; Have Sender; Have Receiver; Take Rec]
  ++ (if oneway then
        (if big then [Want Slots] else []) ++ [Need] ++ (if big then [Have Slots] else [])
      else []).

(** sapi.c 618-793: OWPProcessTestRequest, sapi.c 814-913: OWPProcessTestRequestTW.  The last step is to
    write the acceptance. *)
Definition serve_steps (q : request) : list step :=
  read_steps (negb (q_twoway q)) (q_big q)
  ++ [Need]                                                               (* 628-635 *)
  ++ (if q_twoway q then
        [Need; Policy (q_closure q); Take Endp; Hook; Need; Need]         (* 845-893 *)
      else
        (if q_crecv q then [Need] else [])                                (* 637-641 *)
        ++ [Take Sctx]                                                    (* 647-654 *)
        ++ (if q_crecv q then
              (if q_csend q then [Fail] else [])                          (* 660-673 *)
              ++ [Policy (q_closure q); Take Endp] else [])               (* 675-692 *)
        ++ (if q_csend q then
              [Need; Policy (q_closure q); Take Endp; Hook] else [])      (* 695-755 *)
        ++ (if q_crecv q then [Hook] else [])                             (* 764-768 *)
        ++ [Need]).                                                       (* 771-775 *)

(** [acceptval] is the value of that variable when the label error is reached; it only matters for what
    the policy is told.  If only the writing of the acceptance fails it is the OWP_CNTRL_ACCEPT that
    _OWPEndpointInitHook has put there (endpoint.c 4022-4023, sapi.c 771-775, 890-894). *)
Definition serve_request (q : request) (i : nat) (fails : nat -> bool) (acceptval : nat)
  : option (list kind) * list event :=
  let '(w, es, ok) := build (serve_steps q) i fails 0 [] in
  let '(_, _, started) := build (removelast (serve_steps q)) i fails 0 [] in
  if ok then (Some w, es)
  else (None, es ++ request_error i w (if started then CNTRL_ACCEPT else acceptval)).

(** capi.c 1510-1557: the part of OWPFetchSession that has a session record: it is read from the
    server, its two addresses are copied (a "goto failure" each if there is none, capi.c 1520-1529),
    and it is freed. *)
Definition fetch (big : bool) (i : nat) (fails : nat -> bool) (noaddr : bool) : list event :=
  let '(w, es, ok) := build (read_steps true big) i fails 0 [] in
  if ok then
    if noaddr then es
    else es ++ session_free i w CNTRL_INVALID
  else es ++ request_error i w CNTRL_FAILURE.

(** ** Connections *)

(** A connection: its number, what it holds, whether cntrl->remote_addr is set, how many copies of
    the name of the interface were made (cntrl->interface is the last one), its sessions. *)
Record ctl := {
  c_id : nat; c_w : list kind; c_remote : bool; c_copies : nat; c_tests : list (nat * list kind)
}.

(** context.c 277-330: OWPControlClose *)
Definition control_close (c : ctl) : list event :=
  flat_map (fun t => session_free (fst t) (snd t) CNTRL_FAILURE) (c_tests c)
  ++ give CTable (c_id c) (c_w c)
  ++ give SendH (c_id c) (c_w c) ++ give RecvH (c_id c) (c_w c)
  ++ (if c_remote c then [Give (Remote, c_id c)] else [])
  ++ give Local (c_id c) (c_w c)
  ++ (match c_copies c with 0 => [] | S n => [Give (Iface n, c_id c)] end)
  ++ [Give (Cntrl, c_id c)].

(** context.c 332-400: _OWPControlAlloc *)
Definition alloc_steps : list step := [Take Cntrl; Take CTable; Take SendH; Take RecvH].
(** context.c 401-411: its label error *)
Definition alloc_error (i : nat) (w : list kind) : list event :=
  give SendH i w ++ give RecvH i w ++ give Cntrl i w.

(** What became of an attempt to connect to one of the addresses of the server, capi.c 168-240: no
    socket or interface not usable; local address not usable or connection refused; connected but the
    address record cannot be filled in; connected but the local address cannot be determined (after
    cntrl->remote_addr was set); return -1; connected. *)
Inductive try := NoSocket | NotConnected | NoRecord | NoLocal | GiveUp | Connected.

(** capi.c 305-340: the loop over the addresses: remote_addr set, copies made, connected *)
Fixpoint connect (i : nat) (iface : bool) (ts : list try) (remote : bool) (copies : nat)
  : bool * nat * bool * list event :=
  match ts with
  | [] => (remote, copies, false, [])
  | NoSocket :: r => connect i iface r remote copies
  | t :: r =>
    let es := if iface then [Get (Iface copies, i)] else [] in
    let copies := if iface then S copies else copies in
    match t with
    | Connected => (true, copies, true, es)
    | GiveUp => (remote, copies, false, es)
    | _ =>
      let '(m, n, b, es2) :=
        connect i iface r (match t with NoLocal => true | _ => remote end) copies in
      (m, n, b, es ++ es2)
    end
  end.

(** The arguments of OWPControlOpen: the server address exists / has an open socket; an interface is
    named; the addresses and what becomes of them. *)
Record opening := { o_server : bool; o_direct : bool; o_iface : bool; o_tries : list try }.

(** capi.c 445-655: the rest of OWPControlOpenCommon: greeting, pass phrase, mode, answer *)
Definition client_steps (haslocal : bool) : list step :=
  (if haslocal then [] else [Take Local])
  ++ [Need; Want Pf; Need; Need; Need; Need; Drop Pf; Need; Need; Need].

(** what an operation on the library leads to *)
Inductive outcome (A : Type) :=
| Done (x : A)
| Crash.                (* a null pointer is dereferenced *)
Arguments Done {A}. Arguments Crash {A}.

(** capi.c 387-671: OWPControlOpenCommon.  If the record cannot be allocated [cntrl] is NULL at the label
    error, where cntrl->remote_addr is read (capi.c 668). *)
Definition control_open (o : opening) (i : nat) (afails fails : nat -> bool)
  : outcome (option ctl) * list event :=
  let es0 := if o_server o then [Get (Remote, i)] else [] in
  let '(w, es1, ok) := build alloc_steps i afails 0 (if o_server o then [Remote] else []) in
  if negb ok then (Crash, es0 ++ es1 ++ alloc_error i w)
  else
    let '(m, n, b, es2) :=
      if negb (o_server o) then (false, 0, false, [])
      else if o_direct o then (true, 0, true, [])
      else connect i (o_iface o) (o_tries o) false 0 in
    let w := match n with 0 => w | S k => Iface k :: w end in         (* the last copy *)
    let fail w es :=
      (Done None,
       es ++ give Pf i w
          ++ (if o_server o && negb m then [Give (Remote, i)] else [])
          ++ control_close {| c_id := i; c_w := w; c_remote := m; c_copies := n; c_tests := [] |}) in
    if negb b then fail w (es0 ++ es1 ++ es2)
    else
      let local := negb (o_direct o) in
      let '(w2, es3, ok2) := build (client_steps local) i fails 0 (if local then Local :: w else w) in
      let es := es0 ++ es1 ++ es2 ++ (if local then [Get (Local, i)] else []) ++ es3 in
      if ok2 then
        (Done (Some {| c_id := i; c_w := w2; c_remote := m; c_copies := n; c_tests := [] |}), es)
      else fail w2 es.

(** sapi.c 289-516: OWPControlAccept.  If the record cannot be allocated OWPControlClose is called with a
    null pointer (sapi.c 516). *)
Definition accept_steps : list step :=
  [Take Remote; Need; Take Local; Need; Need; Need; Need; Want Pf; Need; Need; Drop Pf; Need; Need].

Definition control_accept (i : nat) (afails fails : nat -> bool) : outcome (option ctl) * list event :=
  let '(w, es1, ok) := build alloc_steps i afails 0 [] in
  if negb ok then (Crash, es1 ++ alloc_error i w)
  else
    let '(w2, es2, ok2) := build accept_steps i fails 0 w in
    let c := {| c_id := i; c_w := w2; c_remote := mem Remote w2; c_copies := 0; c_tests := [] |} in
    if ok2 then (Done (Some c), es1 ++ es2)
    else (Done None, es1 ++ es2 ++ give Pf i w2 ++ control_close c).

(** ** The context *)

(** context.c 74-178: OWPContextCreate after the record and the error handle: clock, table, source of
    random numbers, signals *)
Definition context_steps : list step := [Need; Take CtxTable; Take CtxRand; Need; Need; Need; Need].

(** context.c 246-275: OWPContextFree after the connections *)
Definition context_free (w : list kind) : list event :=
  give CtxTable 0 w ++ give CtxRand 0 w ++ give CtxErr 0 w ++ [Give (Ctx, 0)].

(** [own]: the library opens its own error handle (no handle was passed); [e1], [e2]: the record and
    the handle cannot be had *)
Definition context_create (own e1 e2 : bool) (fails : nat -> bool) : option (list kind) * list event :=
  if e1 then (None, [])
  else if own && e2 then (None, [Get (Ctx, 0); Give (Ctx, 0)])
  else
    let w0 := if own then [CtxErr; Ctx] else [Ctx] in
    let '(w, es, ok) := build context_steps 0 fails 0 w0 in
    let es := Get (Ctx, 0) :: (if own then [Get (CtxErr, 0)] else []) ++ es in
    if ok then (Some w, es) else (None, es ++ context_free w).

(** ** What an application can do with a context *)

(** [c] counts the connections of the context, the most recent one first (ctx->cntrl_list). *)
Inductive op :=
| Open (o : opening) (afails fails : nat -> bool)
| Accept (afails fails : nat -> bool)
| Request (c : nat) (q : request) (fails : nat -> bool)
| Serve (c : nat) (q : request) (fails : nat -> bool) (acceptval : nat)
| Fetch (c : nat) (big : bool) (fails : nat -> bool) (noaddr : bool)
| Stop (c : nat) (v : nat)
| Close (c : nat).

(** the connections, and the number of the next connection or session *)
Record lib := { l_ctls : list ctl; l_next : nat }.

Definition set_tests (c : ctl) (ts : list (nat * list kind)) : ctl :=
  {| c_id := c_id c; c_w := c_w c; c_remote := c_remote c; c_copies := c_copies c; c_tests := ts |}.

(** the list with its n-th element replaced, or taken out *)
Fixpoint put {A} (n : nat) (x : option A) (l : list A) : list A :=
  match l, n with
  | [], _ => []
  | _ :: r, 0 => match x with Some y => y :: r | None => r end
  | y :: r, S m => y :: put m x r
  end.

(** a session that was set up is linked in front (capi.c 1246-1247, sapi.c 780-781, 898-899) *)
Definition link (l : lib) (n : nat) (c : ctl) (r : option (list kind)) : lib :=
  {| l_ctls := match r with
               | Some w => put n (Some (set_tests c ((l_next l, w) :: c_tests c))) (l_ctls l)
               | None => l_ctls l
               end;
     l_next := S (l_next l) |}.

Definition do_op (l : lib) (o : op) : outcome lib * list event :=
  let opened r :=
    match r with
    | (Crash, es) => (Crash, es)
    | (Done None, es) => (Done {| l_ctls := l_ctls l; l_next := S (l_next l) |}, es)
    | (Done (Some c), es) => (Done {| l_ctls := c :: l_ctls l; l_next := S (l_next l) |}, es)
    end in
  let on n (f : ctl -> outcome lib * list event) :=
    match nth_error (l_ctls l) n with Some c => f c | None => (Done l, []) end in
  match o with
  | Open p af f => opened (control_open p (l_next l) af f)
  | Accept af f => opened (control_accept (l_next l) af f)
  | Request n q f => on n (fun c =>
      let '(r, es) := session_request q (l_next l) f in (Done (link l n c r), es))
  | Serve n q f v => on n (fun c =>
      let '(r, es) := serve_request q (l_next l) f v in (Done (link l n c r), es))
  | Fetch n big f noaddr => on n (fun c =>
      (Done {| l_ctls := l_ctls l; l_next := S (l_next l) |}, fetch big (l_next l) f noaddr))
  (* api.c 1859-1862 and 2117-2120: the sessions are freed, the first of the list first *)
  | Stop n v => on n (fun c =>
      (Done {| l_ctls := put n (Some (set_tests c [])) (l_ctls l); l_next := l_next l |},
       flat_map (fun t => session_free (fst t) (snd t) v) (c_tests c)))
  | Close n => on n (fun c =>
      (Done {| l_ctls := put n None (l_ctls l); l_next := l_next l |}, control_close c))
  end.

Fixpoint do_ops (l : lib) (os : list op) : outcome lib * list event :=
  match os with
  | [] => (Done l, [])
  | o :: r =>
    match do_op l o with
    | (Done l', es) => let '(x, es2) := do_ops l' r in (x, es ++ es2)
    | (Crash, es) => (Crash, es)
    end
  end.

(** the life of a context: it is created, used and freed (context.c 251-254: the connections that are
    still open are closed, the most recent one first) *)
Definition life (own e1 e2 : bool) (cfails : nat -> bool) (os : list op) : bool * list event :=
  match context_create own e1 e2 cfails with
  | (None, es) => (true, es)
  | (Some w, es) =>
    match do_ops {| l_ctls := []; l_next := 1 |} os with
    | (Crash, es2) => (false, es ++ es2)
    | (Done l, es2) => (true, es ++ es2 ++ flat_map control_close (l_ctls l) ++ context_free w)
    end
  end.
