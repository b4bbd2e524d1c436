(** Vocabulary for the statements about sessions, files and the resources they hold. *)
From Coq Require Import ZArith List Bool.
From Verif Require Import Base Double Policy_Model Policy_Spec Lifecycle_Model.
Import ListNotations.
Open Scope Z_scope.

Definition total {A} (f : A -> Z) (l : list A) : Z := fold_right (fun x s => f x + s) 0 l.

(** what a session holds of a resource *)
Definition res_amount (lim : Z) (r : Z * Z) : Z := if fst r =? lim then snd r else 0.
Definition session_holds (lim : Z) (ti : tinfo) : Z := res_amount lim (ti_res0 ti) + res_amount lim (ti_res1 ti).

(** what the sessions and the files of class [a] and the classes below it hold *)
Definition conn_holds (t : tree) (a : nat) (lim : Z) (c : conn) : Z :=
  if mem a (ancestors t (cn_class c)) then total (fun e => session_holds lim (snd e)) (cn_tests c) else 0.
Definition file_holds (t : tree) (a : nat) (lim : Z) (f : dfile) : Z :=
  if (lim =? LimDisk) && mem a (ancestors t (df_class f)) then df_size f else 0.
Definition held (w : world) (a : nat) (lim : Z) : Z :=
  total (fun e => conn_holds (w_tree w) a lim (snd e)) (w_conns w) + total (file_holds (w_tree w) a lim) (w_files w).

(** the broker's books are right: for bandwidth and disk space, every class that limits them is charged what is held by sessions and files of it and of the
    classes below *)
Definition books_right (w : world) : Prop :=
  forall a lim v u, lim = LimBandwidth \/ lim = LimDisk -> entry (w_tree w) a lim v u -> v <> 0 -> u = held w a lim.

(** the server when it has started: no connection, the files found are charged, and the limit tree is as parsed from the limits file with limits small
    enough for exact arithmetic *)
Definition fresh (fudge : Z * Z) (w : world) : Prop :=
  w_conns w = [] /\ NoDup (map df_sid (w_files w)) /\
  Forall (fun f => (df_class f < length (w_tree w))%nat /\ 0 <= df_size f < 2^63) (w_files w) /\
  tree_ok (w_tree w) /\ limits_exact fudge (w_tree w) /\ zero_unlimited (w_tree w) /\
  (forall a lim v u, entry (w_tree w) a lim v u -> u < 2^63) /\
  (forall a v u, entry (w_tree w) a LimTestSessions v u -> u = 0) /\
  books_right w.

(** amounts are below 2^63 *)
Definition amount (x : Z) : Prop := 0 <= x < 2^63.
Definition in_range (e : event) : Prop :=
  match e with
  | Request _ _ _ _ bw disk _ _ => amount bw /\ amount disk
  | Finish _ _ _ (Some s) _ | Fetched _ _ (Some s) _ => amount s
  | _ => True
  end.

(** the event makes sense in this state *)
Definition possible (w : world) (e : event) : Prop :=
  match e with
  | Connect id cl => get id (w_conns w) = None /\ (cl < length (w_tree w))%nat
  | Request id sid _ _ _ _ _ _ => (exists c, get id (w_conns w) = Some c) /\ sid_free w sid = true
  | Finish id sid _ _ _ => exists c ti, get id (w_conns w) = Some c /\ get sid (cn_tests c) = Some ti
  | Fetch id sid _ _ => exists c f, get id (w_conns w) = Some c /\ cn_fetch c = None /\ get_file sid (w_files w) = Some f
  | Fetched id _ _ _ => exists c f b e, get id (w_conns w) = Some c /\ cn_fetch c = Some (f, b, e)
  | Quit id => exists c, get id (w_conns w) = Some c /\ cn_tests c = [] /\ cn_fetch c = None
  | Crash id => exists c, get id (w_conns w) = Some c
  end.

(** an event without failures: queries are answered without interruption, the size of a file can be found out, the process does not crash, and a file that has
    been fetched is still there and belongs to the class of the connection that fetched it *)
Definition answered_all (evs : list qev) : Prop := Forall (fun e => e = QOk) evs.
Definition smooth (w : world) (e : event) : Prop :=
  match e with
  | Connect _ _ | Quit _ | Fetch _ _ _ _ => True
  | Request _ _ _ _ _ _ _ evs => answered_all evs
  | Finish _ _ _ st evs => answered_all evs /\ st <> None
  | Fetched id _ st evs =>
      answered_all evs /\ forall c f b e, get id (w_conns w) = Some c -> cn_fetch c = Some (f, b, e) -> st = Some (df_size f) /\ df_class f = cn_class c /\ In f (w_files w)
  | Crash _ => False
  end.
Inductive history (fudge : Z * Z) (P : world -> event -> Prop) : world -> list event -> world -> list answer -> Prop :=
| hi_nil w : history fudge P w [] w []
| hi_cons w e w1 a l w2 al : in_range e -> P w e -> step fudge w e = Some (w1, a) -> history fudge P w1 l w2 al -> history fudge P w (e :: l) w2 (a :: al).
