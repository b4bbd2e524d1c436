(** Model of how the daemon gives up the privileges of root (owampd/owampd.c 1570-1640, 1768-1783, 1845-1855) *)
From Coq Require Import ZArith List Bool.
From Verif Require Import Base Config_Model.
Import ListNotations.
Open Scope Z_scope.

(** the credentials of a process: real, effective and saved ids, supplementary groups (credentials(7)) *)
Record creds := Creds { ruid : Z; euid : Z; suid : Z; rgid : Z; egid : Z; sgid : Z; groups : list Z }.

(** the system calls: effective user 0 may do everything, others may exchange their ids (setuid(2), seteuid(2), setgid(2), setegid(2)).
    [ok] is false if the call fails for another reason *)
Definition seteuid (ok : bool) (u : Z) (c : creds) : option creds :=
  if ok && ((euid c =? 0) || (u =? ruid c) || (u =? euid c) || (u =? suid c)) then Some (Creds (ruid c) u (suid c) (rgid c) (egid c) (sgid c) (groups c)) else None.
Definition setuid (ok : bool) (u : Z) (c : creds) : option creds :=
  if negb ok then None
  else if euid c =? 0 then Some (Creds u u u (rgid c) (egid c) (sgid c) (groups c))
  else if (u =? ruid c) || (u =? suid c) then Some (Creds (ruid c) u (suid c) (rgid c) (egid c) (sgid c) (groups c)) else None.
Definition setegid (ok : bool) (g : Z) (c : creds) : option creds :=
  if ok && ((euid c =? 0) || (g =? rgid c) || (g =? egid c) || (g =? sgid c)) then Some (Creds (ruid c) (euid c) (suid c) (rgid c) g (sgid c) (groups c)) else None.
Definition setgid (ok : bool) (g : Z) (c : creds) : option creds :=
  if negb ok then None
  else if euid c =? 0 then Some (Creds (ruid c) (euid c) (suid c) g g g (groups c))
  else if (g =? rgid c) || (g =? sgid c) then Some (Creds (ruid c) (euid c) (suid c) (rgid c) g (sgid c) (groups c)) else None.

(** the user and group databases: getpwnam, getgrnam; getpwuid, getgrgid only tell whether there is an entry *)
Record database := Database { by_name : list Z -> option Z; has_id : Z -> bool }.

(** 1582-1595 (user), 1609-1616 (group): [errno] is its value after getpwnam (getgrnam) found nothing; strtoul sets it to ERANGE.  uid_t and gid_t have 32 bits *)
Definition option_id (db : database) (errno : Z) (s : list Z) : option Z :=
  match by_name db s with
  | Some u => Some u
  | None =>
    match s with
    | 45 :: t => let '(v, _, range) := strtoul10 t in
        if negb (errno =? 0) || range || negb (has_id db (u32 v)) then None else Some (u32 v)
    | _ => None
    end
  end.

(** the options and what the environment does: the values of errno and the outcomes of the six system calls *)
Record options := Options { user : option (list Z); group : option (list Z); allowroot : bool }.
Record environment := Environment { users : database; grps : database; errno1 : Z; errno2 : Z; ok1 : bool; ok2 : bool; ok3 : bool; ok4 : bool; ok5 : bool; ok6 : bool }.

Definition when (b : bool) (f : creds -> option creds) (c : creds) : option creds := if b then f c else Some c.
Definition andthen (o : option creds) (f : creds -> option creds) : option creds := match o with Some c => f c | None => None end.

(** 1576-1639: user and group that were asked for; [None]: the daemon exits *)
Definition wanted (e : environment) (o : options) : option (Z * Z) :=
  match (match user o with Some s => option_id (users e) (errno1 e) s | None => Some 0 end) with
  | None => None
  | Some u =>
    if (u =? 0) && negb (allowroot o) then None else
    match group o with
    | None => Some (u, 0)
    | Some s => match option_id (grps e) (errno2 e) s with None => None | Some g => if g =? 0 then None else Some (u, g) end
    end
  end.

(** the credentials with which connections are served; [None]: the daemon exits before *)
Definition start (e : environment) (o : options) (c : creds) : option creds :=
  let serve u g c :=
    andthen (andthen (andthen (when (negb (u =? 0)) (fun c => seteuid (ok3 e) (ruid c) c) c)     (* 1774 *)
    (when (negb (g =? 0)) (fun c => setegid (ok4 e) (rgid c) c)))                                 (* 1779 *)
    (when (negb (g =? 0)) (setgid (ok5 e) g)))                                                    (* 1848 *)
    (when (negb (u =? 0)) (setuid (ok6 e) u)) in                                                  (* 1852 *)
  if euid c =? 0 then
    match wanted e o with
    | None => None
    | Some (u, g) => andthen (andthen (when (negb (g =? 0)) (setegid (ok1 e) g) c) (seteuid (ok2 e) u)) (serve u g)  (* 1630, 1635 *)
    end
  else serve 0 0 c.
