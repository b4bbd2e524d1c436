(** Specification vocabulary for the control connection. *)
From Coq Require Import ZArith List Bool.
From Verif Require Import Base Sched_Model Wire_Model Wire_Spec Control_Model.
Import ListNotations.
Open Scope Z_scope.

(** What is assumed of the external primitives wherever a theorem needs it: AES maps 16-octet
    blocks to 16-octet blocks and decryption inverts encryption; HMAC-SHA1 yields 20 octets. *)
Definition block_cipher (E D : list Z -> list Z -> list Z) : Prop :=
  forall k b, length b = 16%nat -> length (E k b) = 16%nat /\ D k (E k b) = b.
Definition digest20 (H : list Z -> list Z -> list Z) : Prop := forall k t, length (H k t) = 20%nat.

(** Cipher block chaining, written on whole blocks: every ciphertext block is the encryption of
    the plaintext block xor the previous ciphertext block. *)
Inductive chained (E : list Z -> list Z -> list Z) (k : list Z) : list Z -> list (list Z) -> list (list Z) -> Prop :=
| ch_nil : forall iv, chained E k iv [] []
| ch_cons : forall iv p c ps cs,
    c = E k (xor_octets p iv) -> chained E k c ps cs -> chained E k iv (p :: ps) (c :: cs).

(** a control record as the library keeps it: 400-octet message buffer, 16-octet chaining values *)
Definition wf (c : ctl) : Prop :=
  length (msg c) = 400%nat /\ length (riv c) = 16%nat /\ length (wiv c) = 16%nat.

(** no I/O failure is coming *)
Definition quiet (c : ctl) : Prop := Forall (fun r => r = IOok) (io c).

(** what one side writes next the other side is ready to read next *)
Definition linked (w r : ctl) : Prop :=
  mode w = mode r /\ twoway w = twoway r /\ key w = key r /\ hkey w = hkey r /\
  wiv w = riv r /\ shm w = rhm r.

(** [sent w w' o]: between w and w' exactly o was written to the socket *)
Definition sent (w w' : ctl) (o : list Z) : Prop := outp w' = outp w ++ o.

Definition accept_code (a : Z) : Prop := 0 <= a <= 5.

(** the octets decrypted from the next [n] blocks of input *)
Definition incoming (D : list Z -> list Z -> list Z) (s : ctl) (n : nat) : list Z :=
  fst (cbc_dec D (key s) (riv s) n (firstn (16 * n) (inp s))).

(** the authentication code of a message: the last [16] of its octets, equal to the first 16
    octets of the keyed hash of everything since the previous code *)
Definition coded (H : list Z -> list Z -> list Z) (hk before m : list Z) (n : nat) : Prop :=
  octs_at m n 16 = firstn 16 (H hk (before ++ octs_at m 0 n)).

(** decryption, too, maps blocks to blocks (needed for octets that nobody encrypted) *)
Definition blocks16 (D : list Z -> list Z -> list Z) : Prop := forall k b, length b = 16%nat -> length (D k b) = 16%nat.

(** a connection after a message: both sides well-formed, still linked, and the rest of the input
    still there *)
Definition agree (c' s' : ctl) (rest : list Z) : Prop :=
  linked c' s' /\ inp s' = rest /\ wf c' /\ wf s' /\ quiet s'.

(** Sending pieces of plaintext (whole blocks, at most one buffer each) one after the other, and
    receiving a stream in reads of the given numbers of blocks. *)
Fixpoint send_all (E : list Z -> list Z -> list Z) (c : ctl) (pieces : list (list Z)) : option ctl :=
  match pieces with
  | [] => Some c
  | p :: r =>
      match send_blocks E (set_msg c (put 0 p (msg c))) 0 (length p / 16) with
      | (IODone, c) => send_all E c r
      | _ => None
      end
  end.

Fixpoint recv_all (D : list Z -> list Z -> list Z) (s : ctl) (reads : list nat) : option (list Z * ctl) :=
  match reads with
  | [] => Some ([], s)
  | n :: r =>
      match recv_blocks D s 0 n with
      | (IODone, s) => match recv_all D s r with
                       | Some (l, s') => Some (octs_at (msg s) 0 (16 * n) ++ l, s')
                       | None => None
                       end
      | _ => None
      end
  end.
