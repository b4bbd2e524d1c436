(** Model of asking for a session and of starting the sessions, on the side of the client: OWPSessionRequest (capi.c 906-1254) with _OWPClientRequestTestReadResponse
    (capi.c 798-886), _OWPCallCheckTestPolicy (context.c 870-892), _OWPCreateSID (api.c 317-364), _OWPTestSessionFree (api.c 250-297), OWPStartSessions (capi.c 1298-1373) with
    _OWPEndpointStart (endpoint.c 4125-4139) and _OWPFailControlSession (util.c).
    Not modelled: the functions of I2util for records of addresses (each succeeds or fails), memory, messages.  What _OWPEndpointInit and _OWPEndpointInitHook do to the
    system is not modelled here: each succeeds or fails, with any severity of the error.  OWPSessionRequest for a NULL connection is in Pow_Model (it fails by a NULL pointer). *)
From Coq Require Import ZArith List Bool.
From Verif Require Import Base Control_Model Time_Model.
Import ListNotations.
Open Scope Z_scope.

(** one address of getaddrinfo: ai_family (2: AF_INET, 10: AF_INET6), ai_socktype, the octets of the address *)
Record addr := Addr { a_family : Z; a_type : Z; a_octets : list Z }.
Definition AF_INET := 2.
Definition AF_INET6 := 10.

Inductive role := Sender | Receiver.

(** ** Which addresses are used *)

(** capi.c 1019-1026 and 1030-1037: the two loops for one family: the first receiver of the family for which there is a sender of the same family and type *)
Fixpoint first_sender (r : addr) (ss : list addr) : option addr :=
  match ss with
  | [] => None
  | s :: ss => if negb (a_family r =? a_family s) then first_sender r ss else if negb (a_type r =? a_type s) then first_sender r ss else Some s
  end.
Fixpoint first_pair (family : Z) (rs ss : list addr) : option (addr * addr) :=
  match rs with
  | [] => None
  | r :: rs =>
      if negb (a_family r =? family) then first_pair family rs ss else
      match first_sender r ss with Some s => Some (r, s) | None => first_pair family rs ss end
  end.
(** capi.c 1016-1046: [only4], [only6]: options -4 and -6; receiver and sender *)
Definition choose (only4 only6 : bool) (rs ss : list addr) : option (addr * addr) :=
  match (if only4 then None else first_pair AF_INET6 rs ss) with
  | Some p => Some p
  | None => if only6 then None else first_pair AF_INET rs ss
  end.

(** ** Names of sessions *)

(** api.c 317-364: the octets of the address that are used; None: other families *)
Definition sid_address (a : addr) : option (list Z) :=
  if a_family a =? AF_INET6 then Some (sub 12 4 (a_octets a)) else
  if a_family a =? AF_INET then Some (sub 0 4 (a_octets a)) else None.
(** [now]: OWPGetTimeOfDay; [random]: I2RandomBytes, None: it failed *)
Definition create_sid (receiver : addr) (now : timestamp) (random : option (list Z)) : option (list Z) :=
  match sid_address receiver, random with
  | Some p, Some x => Some (p ++ encode_timestamp now ++ x)
  | _, _ => None
  end.

(** ** The request *)

(** a session as it is kept on the side of the client: its name, the addresses, the ports, the endpoints which run here *)
Record session := Session { s_sid : list Z; s_sender : addr; s_sport : Z; s_receiver : addr; s_rport : Z; s_here : option role }.

(** what is done that others can see, latest first: a local socket (and file) is made for this role; the local policy is asked whether this role is allowed, with the
    local and the remote address, and answers; the request is sent, with the flags conf_sender and conf_receiver, the ports of sender and receiver, and the name of the session if the client gives it;
    the process of the local endpoint is made *)
Inductive event :=
| Opened (r : role)
| Asked_policy (r : role) (here there : addr) (verdict : bool)
| Sent (conf_sender conf_receiver : bool) (sport rport : Z) (sid : option (list Z))
| Forked (r : role).

(** the answer of the server: the request could not be sent; no answer was read ([kept]: the server has made the session nevertheless, under this name);
    an answer with the value, the port and the name *)
Inductive answer := Not_sent (e : Z) | Not_read (e : Z) (kept : option (list Z)) | Answer (accept port : Z) (sid : list Z).

Record world := World {
  w_twoway : bool;             (* the connection is one of TWAMP *)
  w_state : bool;              (* _OWPStateIsRequest *)
  w_local : addr;              (* the local address of the connection *)
  w_only4 : bool; w_only6 : bool;
  w_records : bool;            (* I2AddrBySAddr, I2AddrSetSocktype, I2AddrSetProtocol, I2AddrSetPort(...,0), I2AddrAddrInfo, I2AddrSetSAddr *)
  w_alloc : bool;              (* _OWPTestSessionAlloc *)
  w_init : role -> bool * Z * Z;  (* _OWPEndpointInit: success, severity, the local port *)
  w_setport : bool;            (* I2AddrSetPort for the port of the answer *)
  w_answer : event -> answer;  (* the server *)
  w_sid : option (list Z);     (* _OWPCreateSID, see [create_sid] *)
  w_schedule : list Z -> bool;  (* OWPScheduleContextCreate *)
  w_policy : role -> addr -> addr -> bool * Z;  (* the policy: (True, any) if none is set, context.c 884-886 *)
  w_hook : bool * Z }.         (* _OWPEndpointInitHook: success, severity *)

(** the state: the sessions of the client for this connection; the names of the sessions that the server has made for it; what was done *)
Record st := St { client : list session; server : list (list Z); done : list event }.
Definition say (e : event) (s : st) : st := St (client s) (server s) (e :: done s).
Definition made (sid : list Z) (s : st) : st := St (client s) (sid :: server s) (done s).

(** result: the name of the session (True) or None (False), *err_ret, the state *)
Definition res := (option (list Z) * Z * st)%type.

(** capi.c 798-886: the request and its answer; [inl err]: it returns 1, with *err_ret; [inr (sender port, receiver port, name)]: it returns 0.
    [err0]: *err_ret before (it is not set if I2AddrSetPort fails, 866 and 871).  The server keeps a session iff it answers with the value 0 (or the answer is lost);
    the session has the name that the server answers if the server makes the name, and the one sent otherwise *)
Definition ask (w : world) (err0 : Z) (cs cr : bool) (sp rp : Z) (mine : list Z) (s : st) : (Z + Z * Z * list Z) * st :=
  let rp := if w_twoway w && (rp =? 0) then sp else rp in
  let e := Sent cs cr sp rp (if w_twoway w || cr then None else Some mine) in
  match w_answer w e with
  | Not_sent err => (inl err, s)
  | Not_read err k => (inl err, match k with Some sid => made sid (say e s) | None => say e s end)
  | Answer v port sid =>
      let name := if w_twoway w || cr then sid else mine in
      let s := say e s in
      let s := if v =? 0 then made name s else s in
      let to_s := cs && negb cr in
      let to_r := negb to_s && (w_twoway w || (negb cs && cr)) in
      if (to_s || to_r) && negb (w_setport w) then (inl err0, s) else
      if v =? 0 then (inr (if to_s then port else sp, if to_r then port else rp, name), s) else (inl ErrOK, s)
  end.

(** capi.c 906-1254: [sender], [receiver]: the addresses (None: NULL); [cs], [cr]: server_conf_sender, server_conf_receiver *)
Definition request (w : world) (sender : option (list addr)) (cs : bool) (receiver : option (list addr)) (cr : bool) (s : st) : res :=
  if negb (w_state w) then (None, ErrFATAL, s) else
  match (match receiver with None => if cr then None else Some [w_local w] | r => r end),
        (match sender with None => if cs then None else Some [w_local w] | r => r end) with
  | Some rs, Some ss =>
      if negb (w_records w) then (None, ErrOK, s) else
      match choose (w_only4 w) (w_only6 w) rs ss with
      | None => (None, ErrWARNING, s)
      | Some (ra, sa) =>
          if negb (w_alloc w) then (None, ErrOK, s) else
          if w_twoway w || cr then
            (* 1100-1172 *)
            let '(iok, ierr, sport, s) := if cs then (true, ErrOK, 0, s) else let '(ok, e, p) := w_init w Sender in (ok, e, p, if ok : bool then say (Opened Sender) s else s) in
            if negb iok then (None, ierr, s) else
            match ask w ErrOK (negb (w_twoway w) && cs) (negb (w_twoway w) && cr) sport 0 [] s with
            | (inl e, s) => (None, e, s)
            | (inr (sport, rport, sid), s) =>
                if negb (w_schedule w sid) then (None, ErrOK, s) else
                if cs then (Some sid, ErrOK, St (Session sid sa sport ra rport None :: client s) (server s) (done s)) else
                let (v, e) := w_policy w Sender sa ra in
                let s := say (Asked_policy Sender sa ra v) s in
                if negb v then (None, e, s) else
                let (h, e) := w_hook w in
                if negb h then (None, e, s) else
                let s := say (Forked Sender) s in
                (Some sid, ErrOK, St (Session sid sa sport ra rport (Some Sender) :: client s) (server s) (done s))
            end
          else
            (* 1173-1232 *)
            match w_sid w with
            | None => (None, ErrOK, s)
            | Some mine =>
                if negb (w_schedule w mine) then (None, ErrOK, s) else
                let (v, e) := w_policy w Receiver ra sa in
                let s := say (Asked_policy Receiver ra sa v) s in
                if negb v then (None, e, s) else
                let '(ok, e, rport) := w_init w Receiver in
                if negb ok then (None, e, s) else
                let s := say (Opened Receiver) s in
                if negb cs then (None, ErrOK, s) else
                match ask w ErrOK cs cr 0 rport mine s with
                | (inl e, s) => (None, e, s)
                | (inr (sport, rport, sid), s) =>
                    let (h, e) := w_hook w in
                    if negb h then (None, e, s) else
                    let s := say (Forked Receiver) s in
                    (Some sid, ErrOK, St (Session sid sa sport ra rport (Some Receiver) :: client s) (server s) (done s))
                end
            end
      end
  | _, _ => (None, ErrOK, s)
  end.

(** a history of requests for one connection, each with its world *)
Record call := Call { k_world : world; k_sender : option (list addr); k_cs : bool; k_receiver : option (list addr); k_cr : bool }.
Definition do_call (k : call) (s : st) : res := request (k_world k) (k_sender k) (k_cs k) (k_receiver k) (k_cr k) s.
Fixpoint do_calls (l : list call) (s : st) : st :=
  match l with [] => s | k :: l => do_calls l (snd (do_call k s)) end.

(** ** Starting *)

(** what is seen of OWPStartSessions, latest first *)
Inductive sevent := Wrote | Began (n : nat) | Acked (accept : Z).

(** one session: whether it has a local endpoint, and if this is a sender; whether its process can be signalled (endpoint.c 4132) *)
Record local := Local { l_here : option role; l_alive : bool }.

Definition is_receiver (r : option role) : bool := match r with Some Receiver => true | _ => false end.
Definition is_sender (r : option role) : bool := match r with Some Sender => true | _ => false end.

(** capi.c 1340-1347 and 1363-1370: one of the loops; true: it went through *)
Fixpoint start_those (sel : option role -> bool) (n : nat) (l : list local) (t : list sevent) : bool * list sevent :=
  match l with
  | [] => (true, t)
  | x :: l => if sel (l_here x) then if l_alive x then start_those sel (S n) l (Began n :: t) else (false, t) else start_those sel (S n) l t
  end.
(** capi.c 1298-1373: [wrote]: the severity of _OWPWriteStartSessions; [ack]: None: no answer was read; result: the severity, whether the connection is still valid, the events *)
Definition start_sessions (wrote : Z) (ack : option Z) (l : list local) : Z * bool * list sevent :=
  if wrote <? ErrOK then (wrote, false, []) else
  let (ok, t) := start_those is_receiver 0 l [Wrote] in
  if negb ok then (ErrFATAL, false, t) else
  match ack with
  | None => (ErrFATAL, false, t)
  | Some a =>
      let t := Acked a :: t in
      if negb (a =? 0) then (ErrFATAL, false, t) else
      let (ok, t) := start_those is_sender 0 l t in
      if negb ok then (ErrFATAL, false, t) else (ErrOK, true, t)
  end.
