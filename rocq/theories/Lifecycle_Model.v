(** Model of what a connection process of the server does with the broker and with session files in the life of its test
    sessions: /repo/owamp/owamp/owampd/policy.c 2270-2955, called through owamp/context.c from sapi.c, api.c and endpoint.c.
    The broker is [resource_demand] of Policy_Model; several connections share it. *)
From Coq Require Import ZArith List Bool.
From Verif Require Import Base Double Policy_Model.
Import ListNotations.
Open Scope Z_scope.

Notation CNTRL_ACCEPT := 0 (only parsing).

(** What happens to one query of OWPDQuery (2098-2121; both I2Writeni and OWPDReadResponse 1907-1924 are told to return on a signal):
    it is answered; the reading of the answer is interrupted after the query has been sent; the query is not delivered.
    Simplification: messages (28 and 12 octets) are written and read as a whole or not at all. *)
Inductive qev := QOk | QIntr | QLost.

(** 2098-2121: OWPDQuery.  [cl]: the class the broker has noted for the connection; [pipe]: answers of the broker not read so far.
    Result: answer, state of the broker, unread answers; [None]: the broker fails an assertion. *)
Definition query (fudge : Z * Z) (t : tree) (cl : nat) (pipe : list Z) (ev : qev) (mesg lim val : Z) : option (Z * tree * list Z) :=
  match ev with
  | QLost => Some (MESGINVALID, t, pipe)
  | _ =>
      match resource_demand fudge t cl mesg lim val with
      | None => None
      | Some (ok, t') =>
          let ans := if ok then MESGOK else MESGDENIED in
          match ev, pipe ++ [ans] with
          | QOk, a :: r => Some (a, t', r)
          | _, p => Some (MESGINVALID, t', p)
          end
      end
  end.

(** 2270-2290: OWPDInfoTestRec; a resource is (limit, value).  [ti_open]: finfo is set *)
Record tinfo := mkTI { ti_res0 : Z * Z; ti_res1 : Z * Z; ti_open : bool }.
(** session files in the data directory: number of the session (SID), the class whose directory it is in, its size.
    Simplification: the size of a file that is being written is not kept; it appears here when the file is closed. *)
Record dfile := mkFile { df_sid : Z; df_class : nat; df_size : Z }.
(** a connection process: its class, its own copy of the limit tree (fork), unread answers, its sessions with their closures, and the file it is sending
    (2292-2300: OWPDInfoFetchRec) with the range asked for *)
Record conn := mkConn { cn_class : nat; cn_local : tree; cn_pipe : list Z; cn_tests : list (Z * tinfo); cn_fetch : option (dfile * Z * Z) }.

(** the outcomes still to come for the queries of one call; a query beyond the list is answered *)
Definition ev_hd (l : list qev) : qev := hd QOk l.

Inductive policy_verdict := PAccepted (ti : tinfo) | PDenied | PFatal.

Section POLICY.
Variable fudge : Z * Z.

(** 2316-2415: OWPDCheckTestPolicy.  [bw]: OWPTestPacketBandwidth (Size_Model.demanded_bandwidth), [disk]: OWPTestDiskspace.
    Result: verdict, the broker's tree, the own tree, unread answers.  [None]: failed assertion.
    Simplification: no failure of calloc. *)
Definition check_test_policy (t : tree) (c : conn) (twoway local_sender : bool) (bw disk : Z) (evs : list qev)
  : option (policy_verdict * tree * tree * list Z) :=
  match resource_demand fudge (cn_local c) (cn_class c) MESGREQUEST LimTestSessions 1 with
  | None => None
  | Some (false, loc) => Some (PDenied, t, loc, cn_pipe c)
  | Some (true, loc) =>
      let release_session := match resource_demand fudge loc (cn_class c) MESGRELEASE LimTestSessions 1 with Some (_, l) => Some l | None => None end in
      let res0 := if twoway then (0, 0) else (LimBandwidth, bw) in
      match (if twoway then Some (MESGOK, t, cn_pipe c) else query fudge t (cn_class c) (cn_pipe c) (ev_hd evs) MESGREQUEST LimBandwidth bw) with
      | None => None
      | Some (ret, t, pipe) =>
          if ret =? MESGDENIED then option_map (fun l => (PDenied, t, l, pipe)) release_session else
          if ret =? MESGINVALID then Some (PFatal, t, loc, pipe) else
          let evs := if twoway then evs else tl evs in
          if local_sender then Some (PAccepted (mkTI res0 (0, 0) false), t, loc, pipe) else
          match query fudge t (cn_class c) pipe (ev_hd evs) MESGREQUEST LimDisk disk with
          | None => None
          | Some (ret, t, pipe) =>
              if ret =? MESGDENIED then
                match release_session with
                | None => None
                | Some l =>
                    match query fudge t (cn_class c) pipe (ev_hd (tl evs)) MESGRELEASE (fst res0) (snd res0) with
                    | None => None
                    | Some (_, t, pipe) => Some (PDenied, t, l, pipe)
                    end
                end
              else if ret =? MESGINVALID then Some (PFatal, t, loc, pipe)
              else Some (PAccepted (mkTI res0 (LimDisk, disk) false), t, loc, pipe)
          end
      end
  end.

(** 2799-2874, 2926-2930: OWPDCloseFile for the file of a test.  [st]: the size fstat reports, [None] if it fails.
    Result: the broker's tree, unread answers, the closure, and whether the file stays.  [None]: failed assertion.
    Simplification: unlink succeeds; sizes are below 2^63. *)
Definition close_test (t : tree) (cl : nat) (pipe : list Z) (ti : tinfo) (aval : Z) (st : option Z) (evs : list qev)
  : option (tree * list Z * tinfo * bool * list qev) :=
  let done := mkTI (ti_res0 ti) (0, 0) false in
  match st with
  | None => Some (t, pipe, done, true, evs)
  | Some size =>
      if negb (fst (ti_res1 ti) =? LimDisk) then None else
      let est := snd (ti_res1 ti) in
      if negb (aval =? CNTRL_ACCEPT) then
        match query fudge t cl pipe (ev_hd evs) MESGRELEASE (fst (ti_res1 ti)) est with
        | None => None
        | Some (_, t, pipe) => Some (t, pipe, done, false, tl evs)
        end
      else if size <? est then
        match query fudge t cl pipe (ev_hd evs) MESGRELEASE LimDisk (est - size) with
        | None => None
        | Some (_, t, pipe) => Some (t, pipe, done, true, tl evs)
        end
      else if est <? size then
        match query fudge t cl pipe (ev_hd evs) MESGCLAIM LimDisk (size - est) with
        | None => None
        | Some (ret, t, pipe) =>
            if ret =? MESGDENIED then
              match query fudge t cl pipe (ev_hd (tl evs)) MESGRELEASE (fst (ti_res1 ti)) est with
              | None => None
              | Some (_, t, pipe) => Some (t, pipe, done, false, tl (tl evs))
              end
            else Some (t, pipe, done, true, tl evs)
        end
      else Some (t, pipe, done, true, evs)
  end.

(** one pass of the loop 2488-2494 *)
Definition complete_one (t : tree) (cl : nat) (pipe : list Z) (res : Z * Z) (evs : list qev) : option (tree * list Z * list qev) :=
  if fst res =? 0 then Some (t, pipe, evs) else
  match query fudge t cl pipe (ev_hd evs) MESGRELEASE (fst res) (snd res) with
  | None => None
  | Some (_, t, pipe) => Some (t, pipe, tl evs)
  end.

(** 2470-2505: OWPDTestComplete *)
Definition test_complete (t : tree) (cl : nat) (pipe : list Z) (ti : tinfo) (evs : list qev) : option (tree * list Z) :=
  match complete_one t cl pipe (ti_res0 ti) evs with
  | None => None
  | Some (t, pipe, evs) =>
      match complete_one t cl pipe (ti_res1 ti) evs with
      | None => None
      | Some (t, pipe, _) => Some (t, pipe)
      end
  end.

(** owamp/api.c 252-287 (_OWPTestSessionFree) with endpoint.c 187-224 (EndpointFree): the file is closed if it was opened, then the session is complete.
    The last component: whether a file stays. *)
Definition end_session (t : tree) (cl : nat) (pipe : list Z) (ti : tinfo) (aval : Z) (st : option Z) (evs : list qev) : option (tree * list Z * bool) :=
  match (if ti_open ti then close_test t cl pipe ti aval st evs else Some (t, pipe, ti, false, evs)) with
  | None => None
  | Some (t, pipe, ti, keep, evs) =>
      match test_complete t cl pipe ti evs with
      | None => None
      | Some (t, pipe) => Some (t, pipe, keep)
      end
  end.

(** 2879-2920: OWPDCloseFile for a fetched file.  GetLimit is asked for the class of the file, the broker charges the class of the connection.
    Result: the broker's tree, unread answers, whether the file stays *)
Definition close_fetch (t : tree) (cl : nat) (pipe : list Z) (f : dfile) (begin end_ aval : Z) (st : option Z) (evs : list qev) : option (tree * list Z * bool) :=
  match nth_error t (df_class f) with
  | None => None
  | Some n =>
      if (begin =? 0) && (end_ =? 4294967295) && (aval =? CNTRL_ACCEPT) && negb (get_limit n LimDeleteOnFetch =? 0) then
        let size := match st with Some s => s | None => 0 end in
        if 0 <? size then
          match query fudge t cl pipe (ev_hd evs) MESGRELEASE LimDisk size with
          | None => None
          | Some (_, t, pipe) => Some (t, pipe, false)
          end
        else Some (t, pipe, false)
      else Some (t, pipe, true)
  end.

(** The server: the broker's tree, the files, the connections by number *)
Record world := mkWorld { w_tree : tree; w_files : list dfile; w_conns : list (Z * conn) }.

(** What happens.  Arguments named as above; [opens]: OWPDOpenFile (2522-2770) succeeds for a receiving session (if not, the session is given up).
    [Fetch], [Fetched]: a file is opened to be sent to the client (OWPDCheckFetchPolicy 2417-2468 and OWPDOpenFile), and closed; other events may come between.
    [Crash]: the connection process ends without completing its sessions; [Quit]: it ends after having done so. *)
Inductive event :=
| Connect (id : Z) (cl : nat)
| Request (id sid : Z) (twoway local_sender : bool) (bw disk : Z) (opens : bool) (evs : list qev)
| Finish (id sid : Z) (aval : Z) (st : option Z) (evs : list qev)
| Fetch (id sid : Z) (begin end_ : Z)
| Fetched (id : Z) (aval : Z) (st : option Z) (evs : list qev)
| Quit (id : Z)
| Crash (id : Z).

Fixpoint get {A} (k : Z) (l : list (Z * A)) : option A :=
  match l with [] => None | (k', v) :: r => if k' =? k then Some v else get k r end.
Definition del {A} (k : Z) (l : list (Z * A)) : list (Z * A) := filter (fun e => negb (fst e =? k)) l.
Definition put_conn (id : Z) (c : conn) (l : list (Z * conn)) : list (Z * conn) := (id, c) :: del id l.
Definition get_file (sid : Z) (l : list dfile) : option dfile := find (fun f => df_sid f =? sid) l.
Definition del_file (sid : Z) (l : list dfile) : list dfile := filter (fun f => negb (df_sid f =? sid)) l.
(** Simplification: the SID the server makes for a session (address, time, random number) is not one in use. *)
Definition sid_free (w : world) (sid : Z) : bool :=
  forallb (fun f => negb (df_sid f =? sid)) (w_files w) &&
  forallb (fun e => forallb (fun s => negb (fst s =? sid)) (cn_tests (snd e)) &&
                    match cn_fetch (snd e) with Some (f, _, _) => negb (df_sid f =? sid) | None => true end) (w_conns w).

(** the answer a request gets: accepted, denied, or the connection is given up *)
Inductive answer := AAccepted | ADenied | AFatal | ANone.

(** One event.  [None]: undefined (failed assertion) or not possible in this state.
    sapi.c 675-790, 854-910: a request is accepted if the policy and (for a receiver) the file allow it. *)
Definition step (w : world) (e : event) : option (world * answer) :=
  match e with
  | Connect id cl =>
      match get id (w_conns w) with
      | Some _ => None
      | None => if (cl <? length (w_tree w))%nat then Some (mkWorld (w_tree w) (w_files w) (put_conn id (mkConn cl (w_tree w) [] [] None) (w_conns w)), ANone) else None
      end
  | Request id sid twoway local_sender bw disk opens evs =>
      match get id (w_conns w), sid_free w sid with
      | Some c, true =>
          match check_test_policy (w_tree w) c twoway local_sender bw disk evs with
          | None => None
          | Some (PDenied, t, loc, pipe) =>
              Some (mkWorld t (w_files w) (put_conn id (mkConn (cn_class c) loc pipe (cn_tests c) (cn_fetch c)) (w_conns w)), ADenied)
          | Some (PFatal, t, loc, pipe) =>
              Some (mkWorld t (w_files w) (put_conn id (mkConn (cn_class c) loc pipe (cn_tests c) (cn_fetch c)) (w_conns w)), AFatal)
          | Some (PAccepted ti, t, loc, pipe) =>
              if local_sender || opens then
                let ti := mkTI (ti_res0 ti) (ti_res1 ti) (negb local_sender) in
                Some (mkWorld t (w_files w) (put_conn id (mkConn (cn_class c) loc pipe ((sid, ti) :: cn_tests c) (cn_fetch c)) (w_conns w)), AAccepted)
              else
                match test_complete t (cn_class c) pipe ti (skipn 2 evs) with
                | None => None
                | Some (t, pipe) => Some (mkWorld t (w_files w) (put_conn id (mkConn (cn_class c) loc pipe (cn_tests c) (cn_fetch c)) (w_conns w)), ADenied)
                end
          end
      | _, _ => None
      end
  | Finish id sid aval st evs =>
      match get id (w_conns w) with
      | None => None
      | Some c =>
          match get sid (cn_tests c) with
          | None => None
          | Some ti =>
              match end_session (w_tree w) (cn_class c) (cn_pipe c) ti aval st evs with
              | None => None
              | Some (t, pipe, keep) =>
                  let files := if keep then mkFile sid (cn_class c) (match st with Some s => s | None => 0 end) :: w_files w else w_files w in
                  Some (mkWorld t files (put_conn id (mkConn (cn_class c) (cn_local c) pipe (del sid (cn_tests c)) (cn_fetch c)) (w_conns w)), ANone)
              end
          end
      end
  | Fetch id sid begin end_ =>
      match get id (w_conns w), get_file sid (w_files w) with
      | Some c, Some f =>
          match cn_fetch c with
          | Some _ => None
          | None => Some (mkWorld (w_tree w) (w_files w) (put_conn id (mkConn (cn_class c) (cn_local c) (cn_pipe c) (cn_tests c) (Some (f, begin, end_))) (w_conns w)), ANone)
          end
      | _, _ => None
      end
  | Fetched id aval st evs =>
      match get id (w_conns w) with
      | None => None
      | Some c =>
          match cn_fetch c with
          | None => None
          | Some (f, begin, end_) =>
              match close_fetch (w_tree w) (cn_class c) (cn_pipe c) f begin end_ aval st evs with
              | None => None
              | Some (t, pipe, keep) =>
                  Some (mkWorld t (if keep then w_files w else del_file (df_sid f) (w_files w))
                          (put_conn id (mkConn (cn_class c) (cn_local c) pipe (cn_tests c) None) (w_conns w)), ANone)
              end
          end
      end
  | Quit id =>
      match get id (w_conns w) with
      | Some c => match cn_tests c, cn_fetch c with [], None => Some (mkWorld (w_tree w) (w_files w) (del id (w_conns w)), ANone) | _, _ => None end
      | None => None
      end
  | Crash id =>
      match get id (w_conns w) with
      | Some _ => Some (mkWorld (w_tree w) (w_files w) (del id (w_conns w)), ANone)
      | None => None
      end
  end.

(** a history with the answers given *)
Fixpoint run (w : world) (l : list event) : option (world * list answer) :=
  match l with
  | [] => Some (w, [])
  | e :: r => match step w e with
              | None => None
              | Some (w', a) => match run w' r with None => None | Some (w'', al) => Some (w'', a :: al) end
              end
  end.
End POLICY.
