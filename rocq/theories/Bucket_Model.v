(** The histogram of delays (owamp/stats.c 310-545, 860-910, 1574-1616, 1735-1742, 1811-1833): bucket records that are taken from blocks of
    memory, a hash table of the records in use, and the array that is sorted for percentiles.

    The hash table of I2util (not part of the repository) is a list of records; as in the code the key of an entry is the field b of the record it
    refers to.  Assumed of it: a walk visits every entry once although the entries are deleted meanwhile. *)
From Coq Require Import ZArith List Bool Arith.
From Verif Require Import Base Stats_Model Machine_Model.
Import ListNotations.
Open Scope nat_scope.

(** owamp.h 1579-1587: OWPBucketRec: number of the bucket, samples of the three kinds of delay *)
Record node := mkNode { n_b : Z; n_s : list Z }.
Definition zeros : list Z := [0; 0; 0]%Z.

(** a record: block and index *)
Definition addr := (nat * nat)%type.
Definition addr_eqb (a b : addr) : bool := (fst a =? fst b) && (snd a =? snd b).

(** the part of OWPStatsRec that belongs to buckets: the memory, bfreelist, btable, the number of blocks in ballocated *)
Record store := mkStore { s_m : addr -> node; s_free : list addr; s_table : list addr; s_blocks : nat }.
Definition set_node (a : addr) (n : node) (m : addr -> node) : addr -> node := fun x => if addr_eqb a x then n else m x.

(** stats.c 513-517, 905-910: the records of block [k] except the first are put in front of the free list one after the other *)
Definition thread (k len : nat) (free : list addr) : list addr := fold_left (fun f i => (k, i) :: f) (seq 1 (len - 1)) free.

(** stats.c 876-910: at the start: one block of cleared records.  [len]: blistlen *)
Definition new_store (len : nat) : store := mkStore (fun _ => mkNode 0 zeros) (thread 0 len []) [] 1.

(** stats.c 877-885: blistlen.  [d]: the quotient as a fraction; loss_timeout is an OWPNum64, a number of units of 2^-32 s *)
Definition blistlen (d : Z * Z) : Z :=
  let n := if (2147483647 * snd d <? fst d)%Z then 2147483647%Z else (fst d / snd d)%Z in Z.min (Z.max n 10) 2048.

Inductive outcome := Done (s : store) | Failed (s : store) | Crash.

Definition bump (t : nat) (l : list Z) : list Z :=
  map (fun p => if fst p =? t then ((snd p + 1) mod 2^32)%Z else snd p) (combine (seq 0 3) l).

(** stats.c 466-545: BucketIncrementDelay for the delay of kind [t] in bucket [b].  [mem], [hash]: whether calloc and I2HashStore succeed *)
Definition increment (len : nat) (mem hash : bool) (b : Z) (t : nat) (s : store) : outcome :=
  match find (fun a => (n_b (s_m s a) =? b)%Z) (s_table s) with
  | Some a => Done (mkStore (set_node a (mkNode (n_b (s_m s a)) (bump t (n_s (s_m s a)))) (s_m s)) (s_free s) (s_table s) (s_blocks s))
  | None =>
    let s1 := match s_free s with
              | [] => if mem then Some (mkStore (s_m s) (thread (s_blocks s) len []) (s_table s) (S (s_blocks s))) else None
              | _ => Some s
              end in
    match s1 with
    | None => Failed s
    | Some s =>
      match s_free s with
      | [] => Crash
      | a :: r =>
        let m := set_node a (mkNode b zeros) (s_m s) in
        if hash then Done (mkStore (set_node a (mkNode b (bump t zeros)) m) r (a :: s_table s) (s_blocks s))
        else Failed (mkStore m r (s_table s) (s_blocks s))
      end
    end
  end.

(** I2HashDelete: the entry with that key *)
Fixpoint delete (m : addr -> node) (b : Z) (l : list addr) : list addr :=
  match l with [] => [] | a :: r => if (n_b (m a) =? b)%Z then r else a :: delete m b r end.

(** stats.c 334-357: BucketBufferClean for one entry: the entry is deleted first, then the record is cleared and put in front of the free list *)
Definition clean1 (s : store) (a : addr) : store :=
  let t := delete (s_m s) (n_b (s_m s a)) (s_table s) in
  mkStore (set_node a (mkNode 0 zeros) (s_m s)) (a :: s_free s) t (s_blocks s).
(** stats.c 1735-1742: the walk over the table at the start of a summary *)
Definition clean (s : store) : store := fold_left clean1 (s_table s) s.

(** what happens to a statistics object, as far as buckets are concerned *)
Inductive op := Inc (mem hash : bool) (b : Z) (t : nat) | Clean.

(** the state and what the operations returned; [None]: a null pointer was used *)
Fixpoint run (len : nat) (ops : list op) (s : store) : option (store * list bool) :=
  match ops with
  | [] => Some (s, [])
  | Clean :: r => match run len r (clean s) with Some (s2, l) => Some (s2, true :: l) | None => None end
  | Inc mem hash b t :: r =>
    match increment len mem hash b t s with
    | Crash => None
    | Done s1 => match run len r s1 with Some (s2, l) => Some (s2, true :: l) | None => None end
    | Failed s1 => match run len r s1 with Some (s2, l) => Some (s2, false :: l) | None => None end
    end
  end.

(** stats.c 1574-1585: BucketBufferSortCmp: a difference of two ints; [None]: it is no int, which has no defined result *)
Definition sort_cmp (a b : Z) : option Z :=
  let d := (a - b)%Z in if ((- 2^31 <=? d) && (d <? 2^31))%Z then Some d else None.

(** stats.c 1811-1833: what qsort makes of the array: the entries of the table in an order in which no entry is greater than a later one.
    [arr]: the array afterwards *)
Definition sorted_array (s : store) (arr : list addr) : Prop :=
  (forall a, In a arr <-> In a (s_table s)) /\ length arr = length (s_table s) /\
  forall i j, i < j < length arr -> exists d, sort_cmp (n_b (s_m s (nth i arr (0, 0)))) (n_b (s_m s (nth j arr (0, 0)))) = Some d /\ (d <= 0)%Z.

(** stats.c 1602-1612: what is looked at for delays of kind [t] *)
Definition column (s : store) (t : nat) (arr : list addr) : list (Z * Z) :=
  map (fun a => (n_b (s_m s a), nth t (n_s (s_m s a)) 0%Z)) arr.
