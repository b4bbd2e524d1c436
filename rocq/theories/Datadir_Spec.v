(** Vocabulary for the statements about the data directory *)
From Coq Require Import ZArith List Bool.
From Verif Require Import Base Datadir_Model.
Import ListNotations.
Open Scope Z_scope.

(** all files: the directories from the one they are in up to the top, name, size *)
Fixpoint stored (t : tree) (at_ : list name) : list (list name * name * Z) :=
  match t with
  | Nil => []
  | AFile f s rest => (at_, f, s) :: stored rest at_
  | ADir d _ sub rest => stored sub (d :: at_) ++ stored rest at_
  end.
(** all directories, and whether they can be read *)
Fixpoint directories (t : tree) (at_ : list name) : list (list name * bool) :=
  match t with
  | Nil => []
  | AFile _ _ rest => directories rest at_
  | ADir d r sub rest => (d :: at_, r) :: directories sub (d :: at_) ++ directories rest at_
  end.
(** the names of the directories in a directory *)
Fixpoint dir_names (t : tree) : list name :=
  match t with Nil => [] | AFile _ _ rest => dir_names rest | ADir d _ _ rest => d :: dir_names rest end.
(** a directory does not have two directories of the same name *)
Fixpoint distinct (t : tree) : Prop :=
  match t with Nil => True | AFile _ _ rest => distinct rest | ADir d _ sub rest => ~ In d (dir_names rest) /\ distinct sub /\ distinct rest end.

Section S.
Variable parent_of : name -> option (option name).
Variable root : name.
(** the directories are those of a class: the class, its parent, and so on up to the root *)
Fixpoint class_dir (chain : list name) : bool :=
  match chain with
  | [] => false
  | d :: up => match up with
               | [] => eqb_octets d root
               | p :: _ => match parent_of d with Some (Some q) => eqb_octets q p | _ => false end && class_dir up
               end
  end.
Variable hex : list Z -> bool.
(** the session files of the classes *)
Definition sessions (t : tree) : list (list name * name * Z) := filter (fun x => class_dir (fst (fst x)) && session_name hex (snd (fst x))) (stored t []).
(** the space they take, those of the class [d] and of the classes below it *)
Definition space (d : name) (l : list (list name * name * Z)) : Z :=
  fold_right (fun x s => (if existsb (eqb_octets d) (fst (fst x)) then snd x else 0) + s) 0 l.
End S.

(** the text of the directory of a class: the data directory, "hierarchy", the names from the root to the class *)
Fixpoint dir_text (datadir : list Z) (node : list name) : list Z :=
  match node with [] => datadir ++ sep ++ hierarchy | n :: up => dir_text datadir up ++ sep ++ n end.
(** a name that can be one of a directory: no separator in it, not empty, not "." or ".." *)
Definition proper (s : name) : Prop := ~ In 47 s /\ s <> [] /\ s <> [46] /\ s <> [46; 46].
