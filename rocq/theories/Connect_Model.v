(** Model of the connections of client and server: _OWPClientConnect (capi.c 50-345) with what OWPControlOpen and OWPControlClose do to the record of the server's address
    (capi.c 656-672, context.c 321-325), OWPServerSockCreate (sapi.c 35-196), and of what becomes of the pass phrase (capi.c 465-600, sapi.c 407-517).
    Not modelled: getaddrinfo (its list of addresses is arbitrary), the functions of I2util for records of addresses (they are not in the repository: each succeeds
    or fails; I2AddrFree closes the descriptor that I2AddrSetFD(...,True) has stored, capi.c 660), errno, memory. *)
From Coq Require Import ZArith List Bool.
From Verif Require Import Base Control_Model Setup_Model.
Import ListNotations.

(** ** Descriptors *)

(** descriptors that are open; the one stored in the record of the server's address; calls of close for descriptors that are not open *)
Record sys := Sys { opens : list nat; stored : option nat; stray : list nat }.

Definition drop (fd : nat) (l : list nat) : list nat := remove Nat.eq_dec fd l.
Definition close (fd : nat) (s : sys) : sys :=
  if existsb (Nat.eqb fd) (opens s) then Sys (drop fd (opens s)) (stored s) (stray s) else Sys (opens s) (stored s) (fd :: stray s).
Definition store (fd : nat) (s : sys) : sys := Sys (opens s) (Some fd) (stray s).
(** I2AddrFree *)
Definition free_record (s : sys) : sys :=
  match stored s with Some fd => let s := close fd s in Sys (opens s) None (stray s) | None => s end.

Inductive fam := V6 | V4 | Neither.
Definition is_v6 (f : fam) : bool := match f with V6 => true | _ => false end.
Definition is_v4 (f : fam) : bool := match f with V4 => true | _ => false end.

Section Connect.
(** socket(2): a number that is not in use *)
Variable pick : list nat -> nat.
Definition socket (s : sys) : nat * sys := let fd := pick (opens s) in (fd, Sys (fd :: opens s) (stored s) (stray s)).

(** ** The client *)

(** one address of the server, and what happens to it: socket, the interface (OWPSocketInterfaceBind and strdup; true if none is given), _OWPClientBind (true if no local
    address is given), connect, the I2AddrSet... functions, I2AddrByLocalSockFD *)
Record address := Address { a_fam : fam; a_socket : bool; a_interface : bool; a_bind : bool; a_connect : bool; a_set : bool; a_local : bool }.

(** capi.c 163-232: TryAddr: whether it succeeds.  _OWPClientBind never sets *err_ret to something else than OWPErrOK (66-144), so line 190 is not reached *)
Definition try_addr (a : address) (s : sys) : bool * sys :=
  if negb (a_socket a) then (false, s) else
  let (fd, s) := socket s in
  if negb (a_interface a) then (false, close fd s) else
  if negb (a_bind a) then (false, close fd s) else
  if negb (a_connect a) then (false, close fd s) else
  if negb (a_set a) then (false, close fd s) else
  let s := store fd s in
  if negb (a_local a) then (false, close fd s) else (true, s).

(** the loops 313-322 and 328-337: the address that is used *)
Fixpoint try_all (sel : fam -> bool) (l : list address) (s : sys) : option address * sys :=
  match l with
  | [] => (None, s)
  | a :: l =>
      if negb (sel (a_fam a)) then try_all sel l s else
      match try_addr a s with (true, s) => (Some a, s) | (false, s) => try_all sel l s end
  end.

(** capi.c 306-340: [only4], [only6]: options -4 and -6 *)
Definition client_connect (only4 only6 : bool) (l : list address) (s : sys) : option address * sys :=
  match (if only4 then (None, s) else try_all is_v6 l s) with
  | (Some a, s) => (Some a, s)
  | (None, s) => if only6 then (None, s) else try_all is_v4 l s
  end.

(** OWPControlOpen that fails at the connection: capi.c 656-672 and context.c 324 free the record once, as remote_addr or as server_addr; OWPControlClose of
    an open connection: context.c 324 *)
Definition open_and_close (only4 only6 : bool) (l : list address) (s : sys) : sys := free_record (snd (client_connect only4 only6 l s)).

(** ** The server *)

Inductive bound := Bound | InUse | Unbound.
(** one address: socket, setsockopt, bind, the I2AddrSet... functions *)
Record place := Place { p_fam : fam; p_socket : bool; p_options : bool; p_bind : bound; p_set : bool }.
(** results of OpenSocket: the place with its descriptor, -1, -2 *)
Inductive socket_at := At (p : place) (fd : nat) | None_found | Given_up.

(** sapi.c 35-98: OpenSocket.  When the I2AddrSet... functions fail, nothing is stored *)
Fixpoint open_socket (sel : fam -> bool) (l : list place) (s : sys) : socket_at * sys :=
  match l with
  | [] => (None_found, s)
  | p :: l =>
      if negb (sel (p_fam p)) then open_socket sel l s else
      if negb (p_socket p) then open_socket sel l s else
      let (fd, s) := socket s in
      if negb (p_options p) then open_socket sel l (close fd s) else
      match p_bind p with
      | Bound => if p_set p then (At p fd, store fd s) else (None_found, s)
      | InUse => (Given_up, s)
      | Unbound => open_socket sel l (close fd s)
      end
  end.

(** sapi.c 134-196: OWPServerSockCreate; [listens]: the answer of listen(2) *)
Definition server_socket (listens : bool) (l : list place) (s : sys) : option place * sys :=
  let '(r, s) :=
    match open_socket is_v6 l s with
    | (None_found, s) => open_socket is_v4 l s
    | r => r
    end in
  match r with
  | At p fd => if listens then (Some p, s) else (None, free_record s)
  | _ => (None, free_record s)
  end.
End Connect.

(** ** Pass phrases *)

Section Secrets.
Open Scope Z_scope.
Variable E D : list Z -> list Z -> list Z.
Variable kdf : list Z -> list Z -> Z -> option (list Z).
(** what becomes of a pass phrase that was read, if the application hands over its memory (the result pf_free of the hook; the hooks of owping, powstream and owampd return pointers into their own
    tables and NULL for pf_free, owping.c 655-657, policy.c 1429-1432: for them nothing is freed or overwritten): it is overwritten and freed, or only freed *)
Inductive fate := NotRead | Wiped | LeftInMemory.

(** capi.c 451-600, 656-660: as open_respond; every way to error or denied before line 588 frees the memory only *)
Definition client_fate (c : ctl) (w : cworld) : fate :=
  let '(rc, (offered, challenge, salt, count), c) := read_greeting c in
  if negb (rc =? ErrOK) then NotRead else
  match client_pf w offered with
  | None | Some None => NotRead
  | Some (Some pf) =>
      match select_mode offered (cw_req w) true (twoway c) (cw_policy w) with
      | SelDenied | SelError => LeftInMemory
      | SelMode m =>
          if ciphers (set_mode c m) then
            match cw_key w, cw_hkey w, cw_iv w with
            | Some k, Some hk, Some iv => match encrypt_token E kdf pf salt count (challenge ++ k ++ hk) with Some _ => Wiped | None => LeftInMemory end
            | _, _, _ => LeftInMemory
            end
          else Wiped
      end
  end.

(** sapi.c 370-471, 513-517: as accept_decide *)
Definition server_fate (c : ctl) (offered : Z) (challenge salt : list Z) (count : Z) (w : sworld) : fate :=
  let '(rc, (m, user, raw, iv), c) := read_setup c in
  if negb (rc =? ErrOK) then NotRead else
  let c := set_riv (set_mode c m) iv in
  if negb (m =? MODE_OPEN) && (negb (twoway c) || negb (m =? MODE_MIXED)) && negb (m =? MODE_AUTH) && negb (m =? MODE_ENCR) then NotRead else
  if Z.lor m offered =? 0 then NotRead else
  if ciphers c then
    match fst (sw_getpf w user) with
    | None => NotRead
    | Some pf =>
        match decrypt_token D kdf pf salt count raw with
        | None => LeftInMemory
        | Some tok =>
            if negb (eqb_octets challenge (firstn 16 tok)) then LeftInMemory else
            match sw_iv w with None => LeftInMemory | Some _ => Wiped end
        end
    end
  else NotRead.
End Secrets.
