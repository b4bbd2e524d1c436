(** What a reflected packet has to contain, RFC 5357 section 4.2.1, in terms of octets: independent of the model. *)
From Coq Require Import ZArith List Bool.
From Verif Require Import Base Time_Model Wire_Spec Control_Model.
Import ListNotations.
Open Scope Z_scope.

(** open (and mixed) mode: no encryption of test packets; authenticated: the first block; encrypted: all blocks before
    the code, chained, from a zero initialisation vector *)
Inductive protection := Plain | FirstBlock | AllBlocks.
Definition protection_of (mode : Z) : option protection :=
  if (mode =? 1) || (mode =? 8) then Some Plain else if mode =? 2 then Some FirstBlock else if mode =? 4 then Some AllBlocks else None.

(** cipher block chaining from a zero vector: the first [n] blocks of [l] decrypted, the rest as it is *)
Fixpoint unchained (D : list Z -> list Z -> list Z) (k iv : list Z) (n : nat) (l : list Z) : list Z :=
  match n with
  | O => l
  | S n => map (fun p => Z.lxor (fst p) (snd p)) (combine (D k (firstn 16 l)) iv) ++ unchained D k (firstn 16 l) n (skipn 16 l)
  end.

(** request and reply in clear *)
Definition request_clear (D : list Z -> list Z -> list Z) (p : protection) (k req : list Z) : list Z :=
  unchained D k (repeat 0 16) (match p with Plain => 0 | FirstBlock => 1 | AllBlocks => 2 end) req.
Definition reply_clear (D : list Z -> list Z -> list Z) (p : protection) (k rep : list Z) : list Z :=
  unchained D k (repeat 0 16) (match p with Plain => 0 | FirstBlock => 1 | AllBlocks => 6 end) rep.

(** the code of a request and of a reply: the first 16 octets of the digest of the protected blocks *)
Definition request_authentic (H : list Z -> list Z -> list Z) (p : protection) (hk clear : list Z) : Prop :=
  match p with
  | Plain => True
  | FirstBlock => octs_at clear 32 16 = firstn 16 (H hk (firstn 16 clear))
  | AllBlocks => octs_at clear 32 16 = firstn 16 (H hk (firstn 32 clear))
  end.
Definition reply_authentic (H : list Z -> list Z -> list Z) (p : protection) (hk clear : list Z) : Prop :=
  match p with
  | Plain => True
  | FirstBlock => octs_at clear 96 16 = firstn 16 (H hk (firstn 16 clear))
  | AllBlocks => octs_at clear 96 16 = firstn 16 (H hk (firstn 96 clear))
  end.

(** positions: own number, own time, own error estimate, receive time, the sender's number, time, error estimate, TTL;
    start of the padding *)
Record positions := mkPos { at_time : nat; at_err : nat; at_rcv : nat; at_sseq : nat; at_stime : nat; at_serr : nat; at_sttl : nat; at_pad : nat }.
Definition reply_pos (p : protection) : positions :=
  match p with Plain => mkPos 4 12 16 24 28 36 40 41 | _ => mkPos 16 24 32 48 64 72 80 112 end.
Definition req_time (p : protection) : nat := match p with Plain => 4 | _ => 16 end.
Definition req_err (p : protection) : nat := match p with Plain => 12 | _ => 24 end.
Definition req_pad (p : protection) : nat := match p with Plain => 14 | _ => 48 end.

(** the reply [rep] (in clear) mirrors the request [req] (in clear), has number [i], and reports TTL [ttl] *)
Definition mirrors (p : protection) (req rep : list Z) (i ttl : Z) : Prop :=
  let o := reply_pos p in
  field rep 0 4 = i mod 2^32 /\
  octs_at rep (at_sseq o) 4 = octs_at req 0 4 /\
  octs_at rep (at_stime o) 8 = octs_at req (req_time p) 8 /\
  octs_at rep (at_serr o) 2 = octs_at req (req_err p) 2 /\
  field rep (at_sttl o) 1 = ttl mod 256 /\
  skipn (at_pad o) rep = firstn (length req - at_pad o) (skipn (req_pad p) req) /\
  length rep = Nat.max (length req) (at_pad o).

(** a clock reading as a time stamp: seconds since 1900 and fraction *)
Definition time_of (c : Z * Z) : Z := (fst c + 2208988800) mod 2^32 * 2^32 + snd c * 2^32 / 10^9.

(** numbers of successive attempts to send, with whether the attempt is to be repeated: from 0 on, without gaps; a
    number is used again only for a repetition *)
Fixpoint consecutive (next : Z) (l : list (Z * bool)) : Prop :=
  match l with
  | [] => True
  | (n, again) :: r => n = next /\ consecutive (if again then next else next + 1) r
  end.
