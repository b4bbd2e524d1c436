(** Model of the limit tree and of the resource broker of the server: /repo/owamp/owamp/owampd/policy.c and owampd.c.
    Pointers to classes are indices into the list of classes in the order of their definition; I2Table hashes are
    association lists (I2util is not part of the repository). *)
From Coq Require Import ZArith List Bool.
From Verif Require Import Base Double.
Import ListNotations.
Open Scope Z_scope.

(** policy.h 124-129 *)
Notation LimParent := 0 (only parsing).
Notation LimBandwidth := 1 (only parsing).
Notation LimDisk := 3 (only parsing).
Notation LimDeleteOnFetch := 4 (only parsing).
Notation LimAllowOpenMode := 5 (only parsing).
Notation LimTestSessions := 6 (only parsing).
(** policy.h 174-186 *)
Notation MESGMARK := 4278124286 (only parsing).
Notation MESGCLASS := 52719 (only parsing).
Notation MESGRESOURCE := 48879 (only parsing).
Notation MESGREQUEST := 65261 (only parsing).
Notation MESGRELEASE := 57005 (only parsing).
Notation MESGCLAIM := 2092753 (only parsing).
Notation MESGINVALID := 0 (only parsing).
Notation MESGOK := 1 (only parsing).
Notation MESGDENIED := 2 (only parsing).

(** policy.c 124, 133-140: limkeys *)
Inductive limtype := LimInt | LimBool | LimNot.
Definition lim_type (lim : Z) : limtype :=
  if (lim =? LimBandwidth) || (lim =? LimDisk) || (lim =? LimTestSessions) then LimInt
  else if (lim =? LimDeleteOnFetch) || (lim =? LimAllowOpenMode) then LimBool else LimNot.
(** policy.c 142-156: GetDefLimit *)
Definition def_limit (lim : Z) : Z := if lim =? LimAllowOpenMode then 1 else 0.

(** policy.h 131-139: OWPDPolicyNodeRec.  The name is without its NUL; [nd_lims] are (limit, value) pairs, [nd_used] the values of
    the used array (whose limit members are never read). *)
Record pnode := mkNode { nd_name : list Z; nd_parent : option nat; nd_lims : list (Z * Z); nd_used : list Z }.
Definition tree := list pnode.

(** the search loops of policy.c 1571, 1588, 1610, 1699: index of the first record for the limit *)
Fixpoint find_lim (lim : Z) (l : list (Z * Z)) : option nat :=
  match l with
  | [] => None
  | (k, _) :: r => if k =? lim then Some 0%nat else option_map S (find_lim lim r)
  end.

(** policy.c 1563-1578: GetLimit *)
Definition get_limit (n : pnode) (lim : Z) : Z :=
  match find_lim lim (nd_lims n) with Some k => snd (nth k (nd_lims n) (0, 0)) | None => def_limit lim end.
(** policy.c 1580-1595: GetUsed *)
Definition get_used (n : pnode) (lim : Z) : Z :=
  match find_lim lim (nd_lims n) with Some k => nth k (nd_used n) 0 | None => 0 end.

(** node->used[k].value = u64 (node->used[k].value + d) *)
Definition add_used (k : nat) (d : Z) (n : pnode) : pnode :=
  mkNode (nd_name n) (nd_parent n) (nd_lims n) (upd k (u64 (nth k (nd_used n) 0 + d)) (nd_used n)).
Fixpoint modify (i : nat) (f : pnode -> pnode) (t : tree) : tree :=
  match t, i with
  | [], _ => []
  | n :: r, O => f n :: r
  | n :: r, S j => n :: modify j f r
  end.

Section DEMAND.
(** policy->diskfudge, a double *)
Variable diskfudge : Z * Z.

(** policy.c 1682-1794: IntegerResourceDemand.  [node = None] is the NULL pointer.  The result is [None] for a failed assertion
    (and for a dangling pointer or a cycle of parents, which would not end). *)
Fixpoint int_demand (fuel : nat) (t : tree) (node : option nat) (query lim val : Z) : option (bool * tree) :=
  match node with
  | None => Some (true, t)
  | Some i =>
      match fuel, nth_error t i with
      | S fuel, Some n =>
          match find_lim lim (nd_lims n) with
          | None => if def_limit lim =? 0 then Some (true, t) else None
          | Some k =>
              let limit := snd (nth k (nd_lims n) (0, 0)) in
              let used := nth k (nd_used n) 0 in
              if limit =? 0 then int_demand fuel t (nd_parent n) query lim val
              else if query =? MESGRELEASE then
                if used <? val then Some (false, t) else
                match int_demand fuel t (nd_parent n) query lim val with
                | Some (true, t') => Some (true, modify i (add_used k (- val)) t')
                | x => x
                end
              else
                match (if query =? MESGCLAIM then if lim =? LimDisk then Some diskfudge else None
                       else if query =? MESGREQUEST then Some (1, 1) else None) with
                | None => Some (false, t)
                | Some fudge =>
                    (* uint64_t sum; both sides of the comparison are converted to double *)
                    if d_lt (d_mul (d_int limit) fudge) (d_int (u64 (val + used))) then Some (false, t) else
                    match int_demand fuel t (nd_parent n) query lim val with
                    | Some (true, t') => Some (true, modify i (add_used k val) t')
                    | x => x
                    end
                end
          end
      | _, _ => None
      end
  end.

(** policy.c 1796-1857: OWPDResourceDemand (without the log messages) *)
Definition resource_demand (t : tree) (i : nat) (query lim val : Z) : option (bool * tree) :=
  match lim_type lim with
  | LimNot => Some (false, t)
  | LimBool =>
      if query =? MESGRELEASE then Some (true, t) else
      match nth_error t i with Some n => Some (get_limit n lim =? val, t) | None => None end
  | LimInt => int_demand (S i) t (Some i) query lim val
  end.
End DEMAND.

(** ** Messages between the connection process and the parent, in host order (little endian here) *)
Fixpoint le_enc (n : nat) (x : Z) : list Z := match n with O => [] | S m => x mod 256 :: le_enc m (x / 256) end.
Fixpoint le_dec (l : list Z) : Z := match l with [] => 0 | b :: r => b + 256 * le_dec r end.

(** policy.c 1875-1892: OWPDSendResponse; 1907-1924: OWPDReadResponse on the octets read ([None] models the end of the
    stream or an error, i.e. fewer octets) *)
Definition send_response (mesg : Z) : list Z := le_enc 4 MESGMARK ++ le_enc 4 mesg ++ le_enc 4 MESGMARK.
Definition read_response (buf : list Z) : Z :=
  if negb (length buf =? 12)%nat then MESGINVALID else
  if negb (le_dec (sub 0 4 buf) =? MESGMARK) || negb (le_dec (sub 8 4 buf) =? MESGMARK) then MESGINVALID
  else le_dec (sub 4 4 buf).

(** policy.c 2098-2121: OWPDQuery, the message; 2051-2096: OWPDReadQuery *)
Definition send_query (query lim val : Z) : list Z :=
  le_enc 4 MESGMARK ++ le_enc 4 MESGRESOURCE ++ le_enc 4 query ++ le_enc 4 lim ++ le_enc 8 val ++ le_enc 4 MESGMARK.
(** (query, limit, value) or [None]; the second component is *err *)
Definition read_query (buf : list Z) : option (Z * Z * Z) * bool :=
  if negb (length buf =? 28)%nat then (None, negb (length buf =? 0)%nat) else
  if negb (le_dec (sub 0 4 buf) =? MESGMARK) || negb (le_dec (sub 24 4 buf) =? MESGMARK) || negb (le_dec (sub 4 4 buf) =? MESGRESOURCE) then (None, true) else
  let q := le_dec (sub 8 4 buf) in
  if (q =? MESGREQUEST) || (q =? MESGRELEASE) || (q =? MESGCLAIM) then (Some (q, le_dec (sub 12 4 buf), le_dec (sub 16 8 buf)), false)
  else (None, true).

(** policy.c 2016-2046: OWPDSendClass, the message.  [None]: the buffer of 80+1+12 octets would overflow. *)
Definition send_class (name : list Z) : option (list Z) :=
  let m := le_enc 4 MESGMARK ++ le_enc 4 MESGCLASS ++ name ++ [0] ++ le_enc 4 MESGMARK in
  if (length m <=? 93)%nat then Some m else None.

(** policy.c 1973-1985: up to 81 octets are read until a NUL; the name and the rest of the stream *)
Fixpoint read_name (n : nat) (buf : list Z) : option (list Z * list Z) :=
  match n, buf with
  | S n, c :: r => if c =? 0 then Some ([], r) else match read_name n r with Some (s, r') => Some (c :: s, r') | None => None end
  | _, _ => None
  end.
(** policy.c 1944-2014: OWPDReadClass up to the look-up: the class name, or [None]; and the rest of the stream.  The stream ends with the connection. *)
Definition read_class (buf : list Z) : option (list Z * list Z) :=
  if (length buf <? 8)%nat then None else
  if negb (eqb_octets (sub 0 4 buf) (le_enc 4 MESGMARK)) || negb (eqb_octets (sub 4 4 buf) (le_enc 4 MESGCLASS)) then None else
  match read_name 81 (skipn 8 buf) with
  | None => None
  | Some (name, r) => if (length r <? 4)%nat || negb (eqb_octets (sub 0 4 r) (le_enc 4 MESGMARK)) then None else Some (name, skipn 4 r)
  end.

(** ** Classes of connections *)
(** policy->limits: class by name *)
Fixpoint find_class_from (i : nat) (name : list Z) (t : tree) : option nat :=
  match t with
  | [] => None
  | n :: r => if eqb_octets (nd_name n) name then Some i else find_class_from (S i) name r
  end.
Definition find_class (name : list Z) (t : tree) : option nat := find_class_from 0 name t.

(** policy.h 141-165: OWPDPidRec.  The memory is cleared before use, so keys are equal exactly if the members are.
    A network: mask length, address size, 16 octets; a user: 81 octets. *)
Inductive pid := PidDefault | PidNet (mask_len addrsize : Z) (addr : list Z) | PidUser (userid : list Z).
Definition pid_eqb (a b : pid) : bool :=
  match a, b with
  | PidDefault, PidDefault => true
  | PidNet m s x, PidNet m' s' x' => (m =? m') && (s =? s') && eqb_octets x x'
  | PidUser x, PidUser x' => eqb_octets x x'
  | _, _ => false
  end.
(** policy->idents *)
Definition idents := list (pid * nat).
Fixpoint ident_fetch (k : pid) (l : idents) : option nat :=
  match l with [] => None | (k', v) :: r => if pid_eqb k k' then Some v else ident_fetch k r end.

(** policy.c 1437-1455: GetNodeDefault; the root is the first class *)
Definition node_default (l : idents) : nat := match ident_fetch PidDefault l with Some v => v | None => 0%nat end.
(** policy.c 1457-1479: GetNodeFromUserID *)
Definition node_from_userid (l : idents) (userid : list Z) : option nat := ident_fetch (PidUser userid) l.

(** policy.c 1537-1558: the loop over mask lengths.  [addr] are the 16 octets of pid.net.addrval *)
Fixpoint net_loop (m : nat) (addrsize : Z) (addr : list Z) (l : idents) : option nat :=
  match m with
  | O => None
  | S m' =>
      let nbytes := Z.of_nat m / 8 in
      let nbits := Z.of_nat m mod 8 in
      let addr := if nbytes <? addrsize then upd (Z.to_nat nbytes) (Z.land (byte (Z.to_nat nbytes) addr) (Z.shiftl 255 (8 - nbits))) addr else addr in
      match ident_fetch (PidNet (Z.of_nat m) addrsize addr) l with
      | Some v => Some v
      | None => net_loop m' addrsize addr l
      end
  end.

(** remote address: 4 octets, 16 octets, or another family *)
Inductive saddr := SA4 (a : list Z) | SA6 (a : list Z) | SAOther.
(** IN6_IS_ADDR_V4MAPPED *)
Definition v4mapped (a : list Z) : bool := eqb_octets (sub 0 10 a) (zeros 10) && eqb_octets (sub 10 2 a) [255; 255].
(** policy.c 1481-1561: GetNodeFromAddr *)
Definition node_from_addr (l : idents) (sa : saddr) : option nat :=
  match (match sa with
         | SA4 a => Some (4, a ++ zeros 12)
         | SA6 a => if v4mapped a then Some (4, sub 12 4 a ++ zeros 12) else Some (16, a)
         | SAOther => None
         end) with
  | None => None
  | Some (addrsize, addr) =>
      match net_loop (Z.to_nat (addrsize * 8)) addrsize addr l with
      | Some v => Some v
      | None => Some (node_default l)
      end
  end.

(** the octets before the first NUL (strlen) *)
Fixpoint cstr (s : list Z) : list Z := match s with [] => [] | c :: r => if c =? 0 then [] else c :: cstr r end.

(** policy.c 2137-2156: OWPDAllowOpenMode *)
Definition allow_open_mode (t : tree) (l : idents) (sa : saddr) : option bool :=
  match node_from_addr l sa with
  | None => None
  | Some i => match nth_error t i with Some n => Some (negb (get_limit n LimAllowOpenMode =? 0)) | None => None end
  end.

(** policy.c 2206-2237: the class determined by OWPDCheckControlPolicy.  [userid]: the 81 octets, [None] for a NULL pointer.
    [docipher]: mode & OWP_MODE_DOCIPHER_CNTRL *)
Definition control_class (t : tree) (l : idents) (docipher : bool) (userid : option (list Z)) (sa : saddr) : option nat :=
  let node := match userid with
    | Some u => if docipher then
                  match find_class (cstr u) t with
                  | Some i => Some i
                  | None => node_from_userid l u
                  end
                else None
    | None => None
    end in
  match node with Some i => Some i | None => node_from_addr l sa end.

(** ** The passphrase of a user: policy.c 1399-1435 (OWPDGetPF) *)
Fixpoint pf_fetch (name : list Z) (l : list (list Z * list Z)) : option (list Z) :=
  match l with [] => None | (k, v) :: r => if eqb_octets name k then Some v else pf_fetch name r end.
Definition get_pf (pfs : list (list Z * list Z)) (userid : list Z) : option (list Z) := pf_fetch (cstr userid) pfs.

(** ** The parent: owampd.c *)
(** owampd.c 168-176: ChldStateRec *)
Record child := mkChild { ch_pid : Z; ch_fd : Z; ch_node : option nat }.
(** fdtable/pidtable, control_sessions, the limit tree *)
Record parent := mkParent { pa_children : list child; pa_sessions : Z; pa_tree : tree }.

(** owampd.c 178-227: AllocChldState *)
Definition alloc_child (pid fd : Z) (p : parent) : parent :=
  mkParent (mkChild pid fd None :: pa_children p) (pa_sessions p + 1) (pa_tree p).
(** owampd.c 229-346: ReapChildren and FreeChldState for one exited process (the poll array is not modelled) *)
Definition free_child (pid : Z) (p : parent) : parent :=
  mkParent (filter (fun c => negb (ch_pid c =? pid)) (pa_children p)) (pa_sessions p - 1) (pa_tree p).

(** what the parent does with the octets available on a pipe: the response and whether the child is sent SIGTERM *)
Record reaction := mkReact { re_parent : parent; re_resp : list Z; re_kill : bool }.
Definition set_node (fd : Z) (i : nat) (l : list child) : list child :=
  map (fun c => if ch_fd c =? fd then mkChild (ch_pid c) (ch_fd c) (Some i) else c) l.
(** owampd.c 354-424: CheckFD for a descriptor that is ready; [buf] is what can be read before the next end of file or
    interruption (for the first message: at least the class message).  [None]: assertion failure or unknown descriptor.
    OWPDReadClass 1944-2014 answers DENIED for an unknown name. *)
Definition check_fd (fudge : Z * Z) (p : parent) (fd : Z) (buf : list Z) : option reaction :=
  match find (fun c => ch_fd c =? fd) (pa_children p) with
  | None => None
  | Some c =>
      match ch_node c with
      | None =>
          match read_class buf with
          | None => Some (mkReact p [] (negb (length buf =? 0)%nat))
          | Some (name, _) =>
              match find_class name (pa_tree p) with
              | Some i => Some (mkReact (mkParent (set_node fd i (pa_children p)) (pa_sessions p) (pa_tree p)) (send_response MESGOK) false)
              | None => Some (mkReact p (send_response MESGDENIED) true)
              end
          end
      | Some i =>
          match read_query buf with
          | (None, err) => Some (mkReact p [] err)
          | (Some (q, lim, val), _) =>
              match resource_demand fudge (pa_tree p) i q lim val with
              | None => None
              | Some (ok, t) => Some (mkReact (mkParent (pa_children p) (pa_sessions p) t) (send_response (if ok then MESGOK else MESGDENIED)) false)
              end
          end
      end
  end.
