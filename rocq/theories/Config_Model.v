(** Model of the configuration of the library (owamp/context.c: the table of a context or connection, 413-778; creation of a context, 69-171; end,
    249-290) and of the numbers in the configuration file of the daemon (owampd/owampd.c 1112-1211, 1467-1475). *)
From Coq Require Import ZArith List Bool.
From Verif Require Import Base Port_Model Options_Model.
Import ListNotations.
Open Scope Z_scope.

(** owampP.h 195: _OWP_CONTEXT_MAX_KEYLEN.  strncpy to a buffer of that size plus one for the NUL (432-436, 519-522, 584-587) *)
Definition short (key : list Z) : list Z := firstn 64 key.

(** a record (206-214) is known by a number; its value is the union as a number of 64 bits.  [tab] is the I2Table: what it holds is the key (a pointer into
    the record) and the record; [heap] has the records that are allocated *)
Record store := Store { tab : list (list Z * nat); heap : list (nat * Z); fresh : nat }.
Definition empty : store := Store [] [] 0.

(** I2HashFetch, I2HashDelete (libI2util, not part of the repository): a finite map *)
Fixpoint lookup {V : Type} (t : list (list Z * V)) (k : list Z) : option V :=
  match t with [] => None | (k', v) :: r => if eqb_octets k k' then Some v else lookup r k end.
Fixpoint remove {V : Type} (t : list (list Z * V)) (k : list Z) : list (list Z * V) :=
  match t with [] => [] | (k', v) :: r => if eqb_octets k k' then r else (k', v) :: remove r k end.

Fixpoint value_of (h : list (nat * Z)) (i : nat) : option Z :=
  match h with [] => None | (j, v) :: r => if Nat.eqb i j then Some v else value_of r i end.
Definition release (h : list (nat * Z)) (i : nat) : list (nat * Z) := filter (fun p => negb (Nat.eqb (fst p) i)) h.

(** 413-460: ConfigSetU.  [alloc] and [stored] are the outcomes of calloc and I2HashStore *)
Definition set_u (s : store) (key : list Z) (val : Z) (alloc stored : bool) : store * bool :=
  if negb alloc then (s, false) else
  let rec := fresh s in
  let h := (rec, val) :: heap s in
  let k := short key in
  let '(t, h) := match lookup (tab s) k with Some trec => (remove (tab s) k, release h trec) | None => (tab s, h) end in
  if stored then (Store ((k, rec) :: t) h (S rec), true) else (Store t (release h rec) (S rec), false).

(** 462-500: ConfigSetV, ConfigSetF (a pointer) and ConfigSetU32, which leaves the upper half of a local union as it happens to be ([junk]);
    the order of octets is that of x86 *)
Definition set_v := set_u.
Definition set_u32 (s : store) (key : list Z) (u32 junk : Z) := set_u s key (junk * M32 + u32).

(** 502-531: ConfigGetU; [None] in the outer option: a record that was freed is read *)
Definition get_u (s : store) (key : list Z) : option (option Z) :=
  match lookup (tab s) (short key) with
  | None => Some None
  | Some i => match value_of (heap s) i with Some v => Some (Some v) | None => None end
  end.

(** 533-571: ConfigGetV (NULL if there is none), ConfigGetU32 *)
Definition get_v (s : store) (key : list Z) : option Z :=
  match get_u s key with Some (Some v) => Some v | Some None => Some 0 | None => None end.
Definition get_u32 (s : store) (key : list Z) : option (option Z) :=
  match get_u s key with Some (Some v) => Some (Some (u32 v)) | Some None => Some None | None => None end.

(** 573-596: ConfigDelete *)
Definition delete (s : store) (key : list Z) : store * bool :=
  match lookup (tab s) (short key) with
  | Some _ => (Store (remove (tab s) (short key)) (heap s) (fresh s), true)
  | None => (s, false)
  end.

(** 221-243, 258-264: free_hash_entries for each entry *)
Definition free_entries (s : store) : store := Store [] (fold_left (fun h p => release h (snd p)) (tab s) (heap s)) (fresh s).

(** operations of an application *)
Inductive op :=
| SetPointer (key : list Z) (v : Z) (alloc stored : bool)
| SetNumber (key : list Z) (n junk : Z) (alloc stored : bool)
| Delete (key : list Z).
Definition apply (s : store) (o : op) : store :=
  match o with
  | SetPointer k v a b => fst (set_v s k v a b)
  | SetNumber k n j a b => fst (set_u32 s k n j a b)
  | Delete k => fst (delete s k)
  end.
Definition run (s : store) (l : list op) : store := fold_left apply l s.

(** ** The number of rounds of the key derivation *)

(** owamp.h 703: "OWPKeyDerivationCount" *)
Definition OWPKeyDerivationCount : list Z := [79; 87; 80; 75; 101; 121; 68; 101; 114; 105; 118; 97; 116; 105; 111; 110; 67; 111; 117; 110; 116].

(** owampP.h 197-204: what is needed of a context *)
Record context := Context { table : store; pbkdf2_count : Z }.

(** 69-171: OWPContextCreate, where it succeeds *)
Definition create : context :=
  let t := empty in
  Context t (match get_u32 t OWPKeyDerivationCount with Some (Some n) => n | _ => 2048 end).

(** 613-690: OWPContextConfigSet..., OWPContextConfigDelete *)
Definition configure (c : context) (l : list op) : context := Context (run (table c) l) (pbkdf2_count c).

(** sapi.c 357-358: the count in the greeting (and 422: that which decrypts the token) *)
Definition greeting_count (c : context) : Z := pbkdf2_count c.

(** ** Numbers in owampd.conf *)

(** strtoul(s,&end,10): the value, the string at end, and whether errno is ERANGE *)
Definition strtoul10 (s : list Z) : Z * list Z * bool :=
  let '(neg, t) := match skip_space s with 45 :: r => (true, r) | 43 :: r => (false, r) | t => (false, t) end in
  match t with
  | c :: _ => if digit c <? 10
              then let '(v, r) := digits 10 0 t in
                   if 18446744073709551615 <? v then (18446744073709551615, r, true) else (if neg then (- v) mod M64 else v, r, false)
              else (0, s, false)
  | [] => (0, s, false)
  end.

(** owampd.c 1112-1211: dieby, controltimeout, pbkdf2_count, maxcontrolsessions, testtimeout: the value of the option; [None]: the daemon ends.
    end == val exactly if nothing was converted *)
Definition conf_number (val : list Z) : option Z :=
  let '(v, e, range) := strtoul10 val in
  if Nat.eqb (length e) (length val) || range then None else Some (u32 v).

(** owampd.c 1364-1475: the context as it is created and then configured; [n] is the option pbkdf2_count, 0 if there is none *)
Definition daemon_context (n junk : Z) : context :=
  if n =? 0 then create else configure create [SetNumber OWPKeyDerivationCount n junk true true].

(** owampd.c 542-559: whether a connection is closed for there being [used] others *)
Definition too_many (max used : Z) : bool := negb (max =? 0) && (max <? u32 (used + 1)).
