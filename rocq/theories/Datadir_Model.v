(** Model of the data directory of the server (owampd/policy.c): names of session files and of the links of the catalog (749-793, 2523-2770), what
    is done at start (795-1140), and the temporary file of the clean-up of a session (owamp/api.c 1223-1280, 1592-1640).

    A directory is a list of its entries in the order of fts_read; names and paths are octets.  Simplifications: directories are not links; other
    failures of system calls than those mentioned are not modelled; the entries that are no directories (files, links, ...) are all called files. *)
From Coq Require Import ZArith List Bool.
From Verif Require Import Base.
Import ListNotations.
Open Scope Z_scope.

Definition name := list Z.
Definition len (s : list Z) : Z := Z.of_nat (length s).
(** limits.h of Linux; POSIX: with the terminating zero, longer names are refused by system calls *)
Definition PATH_MAX : Z := 4096.
(** owamp.h 120-127, policy.h 45-49 *)
Definition sep : list Z := [47].
Definition hierarchy : name := [104; 105; 101; 114; 97; 114; 99; 104; 121].
Definition catalog : name := [99; 97; 116; 97; 108; 111; 103].
Definition ext : list Z := [46; 111; 119; 112].

(** ** Names *)

(** policy.c 749-793: node_dir, without making directories.  [node]: the names of the class, of its parent, ..., of the root *)
Fixpoint node_dir (datadir : list Z) (node : list name) (add_chars : Z) : option (list Z) :=
  match node with
  | n :: parent =>
      match node_dir datadir parent (len n + 1 + add_chars) with
      | None => None
      | Some path => Some (path ++ sep ++ n)
      end
  | [] => if PATH_MAX <? len datadir + 1 + len hierarchy + add_chars then None else Some (datadir ++ sep ++ hierarchy)
  end.

(** policy.c 2565-2597: the name of the file of a session; [sid]: 32 hex digits *)
Definition filepath (datadir : list Z) (node : list name) (sid : name) : option (list Z) :=
  match node_dir datadir node (1 + 32 + len ext) with None => None | Some p => Some (p ++ sep ++ sid ++ ext) end.
(** policy.c 2559-2561, 2593-2595 and 2637-2642: the name of the link *)
Definition linkpath (datadir : list Z) (sid : name) : list Z := datadir ++ sep ++ catalog ++ sep ++ sid ++ ext.
(** policy.c 1073-1082: the length of the data directory is checked when the daemon starts *)
Definition datadir_ok (datadir : list Z) : bool :=
  negb (PATH_MAX <? Z.max (len datadir + 2 + len catalog + 32 + len ext) (len datadir + 1 + len hierarchy)).

(** fopen: longer names are refused *)
Definition fopen_ok (path : list Z) : bool := len path <? PATH_MAX.
(** owampP.h 325, policy.c 2600-2618: what is copied to the endpoint's fname[PATH_MAX] (with the terminating zero), if the file is opened *)
Definition copied_name (datadir : list Z) (node : list name) (sid : name) : option (list Z) :=
  match filepath datadir node sid with Some p => if fopen_ok p then Some (p ++ [0]) else None | None => None end.

(** api.c 1592-1628: the name of the temporary file of the clean-up, written to tmpfname[PATH_MAX] with the terminating zero; [dname]: TMPDIR, if the session
    file was opened by the program.  [None]: too long *)
Definition tmpl : list Z := [111; 119; 97; 109; 112; 46; 88; 88; 88; 88; 88; 88; 88; 88].
Definition tmpfname (dname : list Z) : option (list Z) := if PATH_MAX <? len tmpl + 1 + len dname then None else Some (dname ++ sep ++ tmpl ++ [0]).

(** policy.c 2687-2722: the name of the class of a session, from the target of its link: [before] is what stands before the name of the file.
    The part behind the last separator; [None]: there is none (or it is the first character, 2713) *)
Fixpoint last_part (s : list Z) : option name :=
  match s with
  | [] => None
  | c :: t => match last_part t with Some n => Some n | None => if c =? 47 then Some t else None end
  end.
(** the search starts at the character before the end and does not look at the first character *)
Definition class_of_link (target : list Z) : option name :=
  let before := firstn (length target - 37) target in
  match before with
  | [] => None
  | _ :: t => last_part t
  end.

(** ** Files and links *)

(** resolution of a name by the system: components, without links in directories *)
Fixpoint components (cur : list Z) (s : list Z) : list name :=
  match s with
  | [] => [rev cur]
  | c :: t => if c =? 47 then rev cur :: components [] t else components (c :: cur) t
  end.
Fixpoint walk_path (at_ : list name) (l : list name) : list name :=
  match l with
  | [] => at_
  | n :: l => if eqb_octets n [] || eqb_octets n [46] then walk_path at_ l
              else if eqb_octets n [46; 46] then walk_path (tl at_) l
              else walk_path (n :: at_) l
  end.
(** the place a name stands for, last component first; [cwd]: where relative names start *)
Definition place_of (cwd : list name) (s : list Z) : list name := walk_path (if match s with 47 :: _ => true | _ => false end then [] else cwd) (components [] s).

(** the session files and the links of the catalog by their places *)
Record disk := mkDisk { dk_files : list (list name); dk_links : list (list name * list Z) }.
Definition same_place (a b : list name) : bool := if list_eq_dec (list_eq_dec Z.eq_dec) a b then true else false.
(** policy.c 2597-2618: a session file is opened for writing, then its link is made.  [None]: no file, or a link with this name exists *)
Definition open_session (cwd : list name) (datadir : list Z) (node : list name) (sid : name) (d : disk) : option disk :=
  match filepath datadir node sid with
  | None => None
  | Some p =>
      let l := place_of cwd (linkpath datadir sid) in
      if fopen_ok p && negb (existsb (fun x => same_place (fst x) l) (dk_links d))
      then Some (mkDisk (place_of cwd p :: dk_files d) ((l, p) :: dk_links d)) else None
  end.
(** policy.c 2633-2746: the file that a fetch reads (the place it is found at) and the name of its class; a relative target of a link starts at the directory of the link *)
Definition fetch_session (cwd : list name) (datadir : list Z) (sid : name) (d : disk) : option (list name * name) :=
  let l := place_of cwd (linkpath datadir sid) in
  match find (fun x => same_place (fst x) l) (dk_links d) with
  | None => None
  | Some (_, target) =>
      let f := place_of (tl l) target in
      if existsb (same_place f) (dk_files d) then
        match class_of_link target with Some c => Some (f, c) | None => None end
      else None
  end.

(** ** Start of the daemon *)

(** contents of a directory: a file with its size, or a directory that may be read or not *)
Inductive tree := Nil | AFile (n : name) (size : Z) (rest : tree) | ADir (n : name) (readable : bool) (sub rest : tree).

Section Start.
(** the limits file: the parent of a class, None for the root; [None]: there is no such class *)
Variable parent_of : name -> option (option name).
Variable root : name.
(** the disk limit of a class, with what it inherits; 0: unlimited *)
Variable disk_limit : name -> Z.
(** I2HexDecode(name,tsid,16) succeeds *)
Variable hex : list Z -> bool.

Definition session_name (n : name) : bool := (len n =? 36) && eqb_octets (skipn 32 n) ext && hex (firstn 32 n).

(** initdisk and the usage of the classes; the links made: names with the chain of classes of the directory they lead to *)
Record usage := mkUsage { us_init : name -> Z; us_used : name -> Z; us_links : list (name * list name) }.
Definition upd (f : name -> Z) (k : name) (v : Z) : name -> Z := fun x => if eqb_octets x k then v else f x.

(** policy.c 1603-1651: IntegerResourceUsage *)
Definition resource_usage (n : name) (v : Z) (used : name -> Z) : name -> Z := if disk_limit n =? 0 then used else upd used n v.
(** policy.c 976-998: the end of a directory *)
Definition dir_done (n : name) (parent : option name) (u : usage) : usage :=
  let v := us_init u n in
  mkUsage (match parent with Some p => upd (us_init u) p (us_init u p + v) | None => us_init u end) (resource_usage n v (us_used u)) (us_links u).

(** policy.c 911-1044: the loop over the entries of the directory of class [n]; [chain]: the directories from this one up.  [None]: it fails, the daemon does not start *)
Fixpoint verify (t : tree) (n : name) (chain : list name) (u : usage) : option usage :=
  match t with
  | Nil => Some u
  | AFile f size rest =>
      if session_name f then
        if existsb (fun x => eqb_octets (fst x) f) (us_links u) then None
        else verify rest n chain (mkUsage (upd (us_init u) n (us_init u n + size)) (us_used u) (us_links u ++ [(f, chain)]))
      else verify rest n chain u
  | ADir d readable sub rest =>
      match parent_of d with
      | None => verify rest n chain u
      | Some None => None
      | Some (Some p) =>
          if eqb_octets p n && readable then
            match verify sub d (d :: chain) u with
            | None => None
            | Some u => verify rest n chain (dir_done d (Some n) u)
            end
          else None
      end
  end.
(** the same for the directory "hierarchy" itself: only the root may be there, files are ignored *)
Fixpoint verify_top (t : tree) (u : usage) : option usage :=
  match t with
  | Nil => Some u
  | AFile _ _ rest => verify_top rest u
  | ADir d readable sub rest =>
      match parent_of d with
      | None => verify_top rest u
      | Some _ =>
          if eqb_octets d root && readable then
            match verify sub d [d] u with
            | None => None
            | Some u => verify_top rest (dir_done d None u)
            end
          else None
      end
  end.
(** policy.c 1054-1140: InitializeDiskUsage; the links of the catalog are removed first *)
Definition start (t : tree) : option usage := verify_top t (mkUsage (fun _ => 0) (fun _ => 0) []).
End Start.

(** ** Histories of the directory *)

(** the file [f] is in the directory [c] of the tree in the directory [at_] *)
Fixpoint contents (t : tree) (at_ c : list name) (f : name) (size : Z) : Prop :=
  match t with
  | Nil => False
  | AFile g s rest => (c = at_ /\ f = g /\ size = s) \/ contents rest at_ c f size
  | ADir d _ sub rest => contents sub (d :: at_) c f size \/ contents rest at_ c f size
  end.

(** what a process is about to do with a session: the file has been created, the link not yet (2597-2609); the link has been removed, the file not yet (2829-2830,
    2867-2868, 2910-2911, 2757-2758) *)
Inductive phase := Creating (chain : list name) | Removing (chain : list name).
(** files by the classes of their directory (from the class to the root) and name; links by name, with the classes of the directory they lead to; calls in progress;
    the limits file read at the last start *)
Record world := mkWorld { w_files : list (list name * name); w_links : list (name * list name); w_calls : list (name * phase);
  w_parent : name -> option (option name); w_root : name }.
Definition without {A} (n : name) (l : list (name * A)) : list (name * A) := filter (fun x => negb (eqb_octets (fst x) n)) l.
Definition without_file (c : list name) (n : name) (l : list (list name * name)) : list (list name * name) :=
  filter (fun x => negb (same_place (fst x) c && eqb_octets (snd x) n)) l.
Definition change (w : world) files links calls : world := mkWorld files links calls (w_parent w) (w_root w).

(** the system calls that change directories; between any two of them the daemon may be stopped and started again, with another limits file (its first class, the root,
    is the only one without parent: policy.c 345-377).  [survive]: processes of the previous daemon are still there.
    Simplification: the SID of a new session is not in use *)
Inductive step (hex : list Z -> bool) (survive : bool) : world -> world -> Prop :=
| Create : forall w chain f, session_name hex f = true -> (forall c, ~ In (c, f) (w_files w)) -> ~ In f (map fst (w_calls w)) ->
    step hex survive w (change w ((chain, f) :: w_files w) (w_links w) ((f, Creating chain) :: w_calls w))
| MakeLink : forall w chain f, In (f, Creating chain) (w_calls w) -> ~ In f (map fst (w_links w)) ->
    step hex survive w (change w (w_files w) ((f, chain) :: w_links w) (without f (w_calls w)))
| LinkExists : forall w chain f, In (f, Creating chain) (w_calls w) -> In f (map fst (w_links w)) ->
    step hex survive w (change w (w_files w) (without f (w_links w)) ((f, Removing chain) :: without f (w_calls w)))
| RemoveLink : forall w chain f, In (f, chain) (w_links w) -> ~ In f (map fst (w_calls w)) ->
    step hex survive w (change w (w_files w) (without f (w_links w)) ((f, Removing chain) :: w_calls w))
| RemoveFile : forall w chain f, In (f, Removing chain) (w_calls w) ->
    step hex survive w (change w (without_file chain f (w_files w)) (w_links w) (without f (w_calls w)))
| Restart : forall w parent_of root disk_limit t u, parent_of root = Some None ->
    (forall c f, In (c, f) (w_files w) <-> exists size, contents t [] c f size) ->
    start parent_of root disk_limit hex t = Some u ->
    step hex survive w (mkWorld (w_files w) (us_links u) (if survive then w_calls w else []) parent_of root).
Inductive reach (hex : list Z -> bool) (survive : bool) : world -> Prop :=
| Empty : forall parent_of root, reach hex survive (mkWorld [] [] [] parent_of root)
| Step : forall w w', reach hex survive w -> step hex survive w w' -> reach hex survive w'.
