(** The file of a session in the server and its link in the catalog: how they are made, closed, fetched and removed when something fails
    (owampd/policy.c 2522-2770 OWPDOpenFile, 2788-2960 OWPDCloseFile).  Names of files are as in Datadir_Model; here they are distinct texts, and the
    directories exist or cannot be made. *)
From Coq Require Import ZArith List Bool.
From Verif Require Import Base Datadir_Model.
Import ListNotations.
Open Scope Z_scope.

(** the files by name with their size, and the links with their targets *)
Definition path := list Z.
Record fs := mkFs { f_files : list (path * Z); f_links : list (path * path) }.

Definition lookup {A} (n : path) (l : list (path * A)) : option A :=
  match find (fun x => eqb_octets (fst x) n) l with Some x => Some (snd x) | None => None end.
Definition without {A} (n : path) (l : list (path * A)) : list (path * A) := filter (fun x => negb (eqb_octets (fst x) n)) l.
(** unlink(2) of a name that may be a file or a link *)
Definition unlink (n : path) (d : fs) : fs := mkFs (without n (f_files d)) (without n (f_links d)).
(** fopen(n,"w+b"): made, or emptied *)
Definition fopen_w (n : path) (d : fs) : fs := mkFs ((n, 0) :: without n (f_files d)) (f_links d).

(** what the process holds afterwards: the record OWPDFileInformation and the open file *)
Record holds := Holds { h_record : bool; h_handle : bool }.

(** the system: calloc, node_dir, mkdir of the catalog, fopen, symlink (apart from a name that is in use) *)
Record luck := Luck { k_mem : bool; k_dirs : bool; k_catalog : bool; k_open : bool; k_link : bool }.

(** policy.c 2549-2626, 2753-2770: the file of a test session, [p]: filepath, [l]: linkpath; result: whether it is returned *)
Definition open_test (p l : path) (k : luck) (d : fs) : bool * fs * holds :=
  if negb (k_mem k) then (false, d, Holds false false)                        (* 2549-2552 *)
  else if negb (k_dirs k) then (false, d, Holds true false)                   (* 2574-2578 *)
  else if negb (k_catalog k) then (false, d, Holds true false)                (* 2588-2592 *)
  else if negb (k_open k) then (false, unlink p (unlink l d), Holds false false)   (* 2601-2605, 2754-2765 *)
  else
    let d := fopen_w p d in
    match lookup l (f_links d), lookup l (f_files d), k_link k with
    | None, None, true => (true, mkFs (f_files d) ((l, p) :: f_links d), Holds true true)   (* 2611-2625 *)
    | _, _, _ => (false, unlink p (unlink l d), Holds false false)
    end.

(** policy.c 2822-2893, 2944-2958: the session is over.  [aval]: its outcome, 0 is "accept"; [st]: the size fstat finds; [reserved]: the space asked for;
    [more]: the answer of the broker if more is claimed *)
Definition close_test (p l : path) (aval : Z) (st : option Z) (reserved : Z) (more : bool) (d : fs) : fs :=
  match st with
  | None => d
  | Some size =>
    if negb (aval =? 0) then unlink p (unlink l d)
    else if size <? reserved then d
    else if reserved <? size then (if more then d else unlink p (unlink l d))
    else d
  end.

(** the pointer finfo->node: the class found in the limits file, or what happens to be in the variable *)
Inductive pointer (A : Type) := Class (a : A) | Indeterminate.
Arguments Class {A} a.
Arguments Indeterminate {A}.

(** policy.c 2626-2750: a session is opened to be fetched: the name of its file and its class.  [limits]: the classes by name, with whether sessions are deleted when
    fetched.  [None]: refused, nothing is changed *)
Definition open_fetch (l : path) (limits : name -> option bool) (opens : bool) (d : fs) : option (path * pointer bool) :=
  match lookup l (f_links d) with
  | None => None                                                              (* 2665-2670 *)
  | Some target =>
    if (PATH_MAX + 1 <=? len target) || (len target <? 37) then None          (* 2675-2680 *)
    else match class_of_link target with
         | None => None                                                       (* 2709-2714 *)
         | Some c =>
           let n := match limits c with Some b => Class b | None => Indeterminate end in   (* 2720-2731 *)
           if opens then match lookup target (f_files d) with Some _ => Some (target, n) | None => None end   (* 2740-2744 *)
           else None
         end
  end.

(** policy.c 2897-2942: the fetch is over; [None]: a pointer without value is used *)
Definition close_fetch (l target : path) (n : pointer bool) (begin end_ aval : Z) (d : fs) : option fs :=
  if (begin =? 0) && (end_ =? 4294967295) && (aval =? 0) then
    match n with
    | Indeterminate => None
    | Class del => Some (if del then unlink target (unlink l d) else d)
    end
  else Some d.
