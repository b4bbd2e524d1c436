(** Model of the memory in which a receiver keeps one record for each packet that it waits for: alloc_node, free_node, get_node (endpoint.c 1664-1807), their preparation in
    _OWPEndpointInit (endpoint.c 675-707) and the start of run_receiver (2240-2250), the removal of the oldest record in flush_lost (2066-2082), and LostFree (endpoint.c 88-103).
    Receiver_Model describes the same queue as a list; here it is pointers, and Props_Nodes proves that the pointers do what the list does.
    A pointer is a number; NULL is None.  Simplifications: calloc gives numbers that were not given before; I2HashStore and I2HashDelete (not in the repository) succeed and the table is
    a list of pairs; the members [sent] and [absolute] of a record are left out ([absolute] is computed from [relative]). *)
From Coq Require Import ZArith List Bool Arith.
From Verif Require Import Base.
Import ListNotations.
Open Scope Z_scope.

(** [nx], [sq], [ht], [rel]: the members next, seq, hit, relative of the record at a pointer; [top]: all pointers below were given by calloc;
    [freel]: freelist; [blocks]: lost_allocated; [hash]: lost_packet_buffer; [first], [last]: begin, end; [drawn]: how many numbers were drawn from the schedule *)
Record heap := Heap { nx : nat -> option nat; sq : nat -> Z; ht : nat -> bool; rel : nat -> Z; top : nat; freel : option nat; blocks : option nat;
  hash : list (Z * nat); first : option nat; last : option nat; drawn : nat }.

Definition upd {A} (f : nat -> A) (i : nat) (v : A) : nat -> A := fun j => if Nat.eqb j i then v else f j.

Definition set_nx (i : nat) (v : option nat) (h : heap) : heap := Heap (upd (nx h) i v) (sq h) (ht h) (rel h) (top h) (freel h) (blocks h) (hash h) (first h) (last h) (drawn h).
Definition set_freel (v : option nat) (h : heap) : heap := Heap (nx h) (sq h) (ht h) (rel h) (top h) v (blocks h) (hash h) (first h) (last h) (drawn h).
Definition set_hash (v : list (Z * nat)) (h : heap) : heap := Heap (nx h) (sq h) (ht h) (rel h) (top h) (freel h) (blocks h) v (first h) (last h) (drawn h).
Definition set_ends (f l : option nat) (h : heap) : heap := Heap (nx h) (sq h) (ht h) (rel h) (top h) (freel h) (blocks h) (hash h) f l (drawn h).
Definition set_hit (i : nat) (v : bool) (h : heap) : heap := Heap (nx h) (sq h) (upd (ht h) i v) (rel h) (top h) (freel h) (blocks h) (hash h) (first h) (last h) (drawn h).
Definition set_seq (i : nat) (v : Z) (h : heap) : heap := Heap (nx h) (upd (sq h) i v) (ht h) (rel h) (top h) (freel h) (blocks h) (hash h) (first h) (last h) (drawn h).
Definition draw (i : nat) (v : Z) (h : heap) : heap := Heap (nx h) (sq h) (ht h) (upd (rel h) i v) (top h) (freel h) (blocks h) (hash h) (first h) (last h) (S (drawn h)).

Fixpoint lookup (s : Z) (l : list (Z * nat)) : option nat := match l with [] => None | (k, n) :: l => if k =? s then Some n else lookup s l end.

Section Nodes.
(** [np]: npackets; [num]: numalist, at least 100 (683); [delta]: the numbers of the schedule in the order in which they are drawn; [room]: whether calloc succeeds when [top] is given *)
Variable np : Z.
Variable num : nat.
Variable delta : nat -> Z.
Variable room : nat -> bool.

(** 695-698, 1693-1696: the loop over i, from [i] on, [k] times *)
Fixpoint link_free (k : nat) (p : nat) (h : heap) : heap :=
  match k with O => h | S k => link_free k (S p) (set_freel (Some p) (set_nx p (freel h) h)) end.
(** 1685-1696 (and 685-698, where lost_allocated is NULL before): a new block; its first record only links the blocks *)
Definition grow (h : heap) : heap :=
  let p := top h in
  let h := Heap (upd (nx h) p (blocks h)) (sq h) (ht h) (rel h) (p + num)%nat (freel h) (Some p) (hash h) (first h) (last h) (drawn h) in
  link_free (num - 1) (S p) h.

(** 1664-1716: [None]: NULL *)
Definition alloc_node (seq : Z) (h : heap) : option (nat * heap) :=
  if (np <=? seq) || match last h with Some n => seq <=? sq h n | None => false end then None else
  match (match freel h with None => if room (top h) then Some (grow h) else None | Some _ => Some h end) with
  | None => None
  | Some h =>
      match freel h with
      | None => None
      | Some n => let h := set_freel (nx h n) h in
                  let h := set_nx n None (set_hit n false (set_seq n seq h)) in
                  Some (n, set_hash ((seq, n) :: hash h) h)
      end
  end.

(** 1718-1740 *)
Definition free_node (n : nat) (h : heap) : heap :=
  let h := set_hash (filter (fun e => negb (fst e =? sq h n)) (hash h)) h in
  set_freel (Some n) (set_nx n (freel h) h).

(** what get_node does: a record; NULL; a NULL pointer is used *)
Inductive got := Found (n : nat) (h : heap) | Null | Crash.

(** 1762-1782: the loop; it runs seq - end->seq times, because each turn adds one to node->seq *)
Fixpoint extend (k : nat) (node : nat) (h : heap) : got :=
  match k with
  | O => Found node (set_ends (first h) (Some node) h)
  | S k =>
      match alloc_node (u32 (sq h node + 1)) h with
      | None => Crash
      | Some (n, h) => extend k n (draw n (u64 (rel h node + delta (drawn h))) (set_nx node (Some n) h))
      end
  end.
(** 1742-1807 *)
Definition get_node (seq : Z) (h : heap) : got :=
  match last h, first h with
  | Some en, Some bn =>
      if seq =? sq h en then Found en h else
      if sq h en <? seq then extend (Z.to_nat (seq - sq h en)) en h else
      if seq <? sq h bn then Null else
      match lookup seq (hash h) with Some n => Found n h | None => Null end
  | _, _ => Crash
  end.

(** 2066-2082: [Found]: the queue goes on with this record; [Null]: it is at its end (the heap is then [snd]) *)
Definition pop (h : heap) : got * heap :=
  match first h with
  | None => (Crash, h)
  | Some bn =>
      match nx h bn with
      | Some n => let h := free_node bn (set_ends (Some n) (last h) h) in (Found n h, h)
      | None =>
          if u32 (sq h bn + 1) <? np then
            match get_node (u32 (sq h bn + 1)) h with
            | Found n h => let h := free_node bn (set_ends (Some n) (last h) h) in (Found n h, h)
            | _ => (Crash, h)                                        (* ep->begin is NULL: 2085 *)
            end
          else (Null, set_ends None None (free_node bn h))
      end
  end.

(** endpoint.c 675-707 and 2240-2250: the first record *)
Definition nowhere : heap := Heap (fun _ => None) (fun _ => 0) (fun _ => false) (fun _ => 0) 0 None None [] None None 0.
Definition begin : option heap :=
  if negb (room 0%nat) then None else
  match alloc_node 0 (grow nowhere) with
  | None => None
  | Some (n, h) => Some (draw n (u64 (delta 0%nat)) (set_ends (Some n) (Some n) h))
  end.

(** what the receiver asks of its records: a packet with this number has arrived: was it there before, and its time of the schedule (2476-2540); the oldest record is removed:
    its number, whether it arrived, its time (1997-2082) *)
Inductive ask := Arrived (seq : Z) | Oldest.
Inductive told := Packet (before : bool) (time : Z) | Unknown | Removed (seq : Z) (hit : bool) (time : Z) | Failed.

Definition answer (a : ask) (h : heap) : told * option heap :=
  match a with
  | Arrived seq =>
      match get_node seq h with
      | Found n h => (Packet (ht h n) (rel h n), Some (set_hit n true h))
      | Null => (Unknown, Some h)
      | Crash => (Failed, None)
      end
  | Oldest =>
      match first h with
      | None => (Failed, None)
      | Some bn =>
          let o := Removed (sq h bn) (ht h bn) (rel h bn) in
          match pop h with
          | (Found _ h, _) => (o, Some h)
          | (Null, h) => (o, None)                                   (* flush_lost returns 1 *)
          | (Crash, _) => (Failed, None)
          end
      end
  end.
(** a conversation: it ends when the queue is at its end *)
Fixpoint talk (l : list ask) (h : heap) : list told :=
  match l with
  | [] => []
  | a :: l => match answer a h with (t, Some h) => t :: talk l h | (t, None) => [t] end
  end.
End Nodes.

(** endpoint.c 88-103: LostFree: the pointers that are freed, in [k] turns *)
Fixpoint lost_free (k : nat) (next : nat -> option nat) (p : option nat) : list nat :=
  match k, p with S k, Some n => n :: lost_free k next (next n) | _, _ => [] end.
