(** Specification vocabulary for histories of the server-side calls on one control connection. *)
From Coq Require Import ZArith List Bool.
From Verif Require Import Sched_Model Wire_Model Control_Model Control_Spec Stop_Model Server_Model.
Import ListNotations.
Open Scope Z_scope.

(** The calls a server can make on a connection, with anything their outcome depends on besides
    the connection: OWPReadRequestType, OWPProcessTestRequest, OWPProcessTestRequestTW,
    OWPProcessStartSessions, OWPProcessFetchSession, OWPStopSessions, OWPStopSessionsWait (once the
    socket is readable) and OWPUnexpectedRequestType. *)
Inductive cmd :=
| CRead
| CTest (w : trworld) | CTestTW (w : trworld)
| CStart (starts : list bool)
| CFetch (look : Z -> Z -> list Z -> fetched)
| CStop (aval : Z) (clean : list Z -> Z -> bool) (save : list Z -> bool) (w : stopworld)
| CStopWait (clean : list Z -> Z -> bool) (save : list Z -> bool) (w : stopworld)
| CUnexpected.

(** result of the call (OWPStopSessionsWait reports success by 0: shown as OWPErrOK) *)
Definition run_cmd (E D H : list Z -> list Z -> list Z) (k : cmd) (s : srv) : Z * srv :=
  match k with
  | CRead => let (t, c) := read_request_type D (s_c s) in (t, mkSrv c (s_tests s) (s_sessions s))
  | CTest w => process_test_request E D H s w
  | CTestTW w => process_test_request_tw E D H s w
  | CStart l => process_start E D H s l
  | CFetch look => process_fetch E D H s look
  | CStop a clean save w =>
      let '(rc, _, _, c) := stop_sessions E D H clean save (s_c s) true a (s_tests s) w in (rc, mkSrv c [] (s_sessions s))
  | CStopWait clean save w =>
      let '(r, _, _, _, c) := stop_wait E D H clean save (s_c s) true (s_tests s) w in
      (if r =? 0 then ErrOK else ErrFATAL, mkSrv c [] (s_sessions s))
  | CUnexpected => let (rc, c) := unexpected_request E H (s_c s) in (rc, mkSrv c (s_tests s) (s_sessions s))
  end.

(** a history: calls in order, each with its result *)
Fixpoint serve (E D H : list Z -> list Z -> list Z) (ks : list cmd) (s : srv) : list (cmd * Z) * srv :=
  match ks with
  | [] => ([], s)
  | k :: r => let (rc, s1) := run_cmd E D H k s in
              let (h, s2) := serve E D H r s1 in ((k, rc) :: h, s2)
  end.

(** a call that did what it was asked to do *)
Definition worked (e : cmd * Z) : bool :=
  match fst e with
  | CRead => (1 <=? snd e) && (snd e <=? 5)
  | CStop _ _ _ _ => ErrWARNING <=? snd e
  | _ => snd e =? ErrOK
  end.

(** What an observer of the results knows: a test is running; the kind of the request read last, if
    no request has been carried out since; a request has been read and its processing has not been
    called. *)
Record view := mkView { v_running : bool; v_request : option Z; v_busy : bool }.

(** [tw]: two-way connection.  A test request of the two-way kind is not known on a one-way
    connection: there is nothing to process. *)
Definition note (tw : bool) (v : view) (e : cmd * Z) : view :=
  let w := worked e in
  let v' := if w then None else v_request v in
  match fst e with
  | CRead => if w then mkView (v_running v) (Some (snd e)) (tw || negb (snd e =? 5)) else v
  | CTest _ | CTestTW _ | CFetch _ => mkView (v_running v) v' false
  | CStart _ => mkView (v_running v || w) v' false
  | CStop _ _ _ _ | CStopWait _ _ _ => mkView (v_running v && negb w) v' false
  | CUnexpected => if tw then mkView (v_running v) None false else v
  end.

(** the protocol: what may work in which situation *)
Definition allowed (tw : bool) (v : view) (e : cmd * Z) : Prop :=
  worked e = true ->
  match fst e with
  | CRead => v_busy v = false /\ (snd e = 3 <-> v_running v = true)
  | CTest _ | CTestTW _ => v_running v = false /\ v_request v = Some (if tw then 5 else 1)
  | CStart _ => v_running v = false /\ v_request v = Some 2
  | CFetch _ => v_running v = false /\ v_request v = Some 4
  | CStop _ _ _ _ | CStopWait _ _ _ => v_running v = true
  | CUnexpected => tw = true
  end.

Fixpoint obeys (tw : bool) (v : view) (h : list (cmd * Z)) : Prop :=
  match h with
  | [] => True
  | e :: r => allowed tw v e /\ obeys tw (note tw v e) r
  end.

(** the contents of the next [n] blocks of the input, decrypted if the connection is encrypted *)
Definition plain (D : list Z -> list Z -> list Z) (s : ctl) (n : nat) : list Z :=
  if ciphers s then incoming D s n else firstn (16 * n) (inp s).

(** What the application and the operating system answer when they refuse a test: the policy
    function refuses with severity OK, or with one that ends the connection; the set-up of the
    endpoint gives one of the protocol's error codes. *)
Definition negative_codes (w : trworld) : Prop :=
  (fst (w_policy w) = false -> snd (w_policy w) < ErrWARNING \/ ErrOK <= snd (w_policy w)) /\
  (forall a e, w_init w = Some (a, e) -> 1 <= a <= 5) /\ (forall a e, w_hook w = Some (a, e) -> 1 <= a <= 5).
