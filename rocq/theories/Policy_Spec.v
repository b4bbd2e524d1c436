(** Vocabulary for the statements about the limit tree. *)
From Coq Require Import ZArith List Bool.
From Verif Require Import Base Double Policy_Model.
Import ListNotations.
Open Scope Z_scope.

(** a class and its ancestors *)
Fixpoint ancestors_from (fuel : nat) (t : tree) (i : nat) : list nat :=
  match fuel, nth_error t i with
  | S f, Some n => i :: match nd_parent n with Some p => ancestors_from f t p | None => [] end
  | _, _ => []
  end.
Definition ancestors (t : tree) (i : nat) : list nat := ancestors_from (S i) t i.

(** class a limits the resource lim to v and records a usage of u *)
Definition entry (t : tree) (a : nat) (lim v u : Z) : Prop :=
  exists n k, nth_error t a = Some n /\ nth_error (nd_lims n) k = Some (lim, v) /\ nth_error (nd_used n) k = Some u.

(** what parsing a limits file guarantees (proved in Props_Limits) *)
Definition node_ok (t : tree) (i : nat) (n : pnode) : Prop :=
  length (nd_used n) = length (nd_lims n) /\ NoDup (map fst (nd_lims n)) /\
  Forall (fun e => 0 <= snd e < 2^64) (nd_lims n) /\ Forall (fun u => 0 <= u < 2^64) (nd_used n) /\
  match nd_parent n with
  | None => True
  | Some p => (p < i)%nat /\ exists pn, nth_error t p = Some pn /\ incl (map fst (nd_lims pn)) (map fst (nd_lims n))
  end.
Definition tree_ok (t : tree) : Prop := forall i n, nth_error t i = Some n -> node_ok t i n.

(** resources that are counted *)
Definition counted (lim : Z) : Prop := lim = LimBandwidth \/ lim = LimDisk \/ lim = LimTestSessions.

(** the trees agree in everything but the usage *)
Definition same_shape (t t' : tree) : Prop :=
  length t = length t' /\ forall i n n', nth_error t i = Some n -> nth_error t' i = Some n' ->
    nd_name n = nd_name n' /\ nd_parent n = nd_parent n' /\ nd_lims n = nd_lims n' /\ length (nd_used n) = length (nd_used n').

(** exactly the classes in [l] with a non-zero limit for [lim] were charged [d] *)
Definition charged (l : list nat) (lim d : Z) (t t' : tree) : Prop :=
  same_shape t t' /\
  forall a lim' v u, entry t a lim' v u ->
    (In a l /\ lim' = lim /\ v <> 0 -> entry t' a lim' v (u + d)) /\
    (~ (In a l /\ lim' = lim /\ v <> 0) -> entry t' a lim' v u).

(** the amount a class with limit v may use: v for requests, v times the fudge factor (in double precision) for claims *)
Definition cap (fudge : Z * Z) (query v : Z) : Z := if query =? MESGCLAIM then d_trunc (d_mul (d_int v) fudge) else v.

(** a history: class, kind of query, resource, amount, verdict *)
Record hop := mkHop { h_class : nat; h_query : Z; h_lim : Z; h_val : Z; h_ok : bool }.
Definition mem (a : nat) (l : list nat) : bool := existsb (Nat.eqb a) l.
(** granted to class a and its descendants, minus released *)
Definition net1 (t : tree) (a : nat) (lim : Z) (h : hop) : Z :=
  if h_ok h && (h_lim h =? lim) && mem a (ancestors t (h_class h)) then (if h_query h =? MESGRELEASE then - h_val h else h_val h) else 0.
Definition net (t : tree) (a : nat) (lim : Z) (l : list hop) : Z := fold_right (fun h s => net1 t a lim h + s) 0 l.
(** the same for the class itself, without descendants *)
Definition own1 (i : nat) (lim : Z) (h : hop) : Z :=
  if h_ok h && (h_lim h =? lim) && (h_class h =? i)%nat then (if h_query h =? MESGRELEASE then - h_val h else h_val h) else 0.
Definition own (i : nat) (lim : Z) (l : list hop) : Z := fold_right (fun h s => own1 i lim h + s) 0 l.

(** the broker processes the queries one after the other *)
Inductive broker (fudge : Z * Z) : tree -> list hop -> tree -> Prop :=
| b_nil t : broker fudge t [] t
| b_cons t h t1 l t2 : resource_demand fudge t (h_class h) (h_query h) (h_lim h) (h_val h) = Some (h_ok h, t1) -> broker fudge t1 l t2 -> broker fudge t (h :: l) t2.

(** amounts and limits for which the arithmetic is exact *)
Definition hop_ok (t : tree) (c : nat) (query val : Z) : Prop :=
  (c < length t)%nat /\ 0 <= val < 2^63 /\ (query = MESGREQUEST \/ query = MESGRELEASE \/ query = MESGCLAIM).
Definition bound (fudge : Z * Z) (lim v : Z) : Z := if lim =? LimDisk then Z.max v (cap fudge MESGCLAIM v) else v.
Definition limits_exact (fudge : Z * Z) (t : tree) : Prop :=
  forall a lim v u, counted lim -> entry t a lim v u -> v < 2^53 /\ bound fudge lim v < 2^53.
(** usage is within the limit, or within what it was at the start ([B]), if that was more: the server starts with the files it finds *)
Definition within (fudge : Z * Z) (B : nat -> Z -> Z) (t : tree) : Prop :=
  forall a lim v u, counted lim -> entry t a lim v u -> v <> 0 -> u <= Z.max (bound fudge lim v) (B a lim).
Definition start_ok (B : nat -> Z -> Z) : Prop := forall a lim, B a lim < 2^63.
(** nothing is ever charged where there is no limit *)
Definition zero_unlimited (t : tree) : Prop := forall a lim u, counted lim -> entry t a lim 0 u -> u = 0.


(** ** Networks *)
(** the width and the value of the address a remote end is seen as; ::ffff:a.b.c.d is a.b.c.d *)
Definition seen_as (sa : saddr) : option (Z * Z) :=
  match sa with
  | SA4 a => Some (32, be_dec a)
  | SA6 a => if be_dec a / 2^32 =? 65535 then Some (32, be_dec a mod 2^32) else Some (128, be_dec a)
  | SAOther => None
  end.
Definition sa_wf (sa : saddr) : Prop :=
  match sa with SA4 a => octets a /\ length a = 4%nat | SA6 a => octets a /\ length a = 16%nat | SAOther => True end.
(** the first m of the w bits agree *)
Definition contains (w m P A : Z) : Prop := A / 2^(w - m) = P / 2^(w - m).
(** the network P/m of w-bit addresses is assigned to class c *)
Definition assigned (l : idents) (w m P : Z) (c : nat) : Prop :=
  exists s a, In (PidNet m (Z.of_nat s) a, c) l /\ w = 8 * Z.of_nat s /\ P = be_dec (firstn s a).
(** what parsing the assign lines guarantees *)
Definition net_key_ok (m sz : Z) (a : list Z) : Prop :=
  exists s, sz = Z.of_nat s /\ (s = 4 \/ s = 16)%nat /\ 1 <= m <= 8 * sz /\ octets a /\ length a = 16%nat /\ skipn s a = zeros (16 - s) /\
  be_dec (firstn s a) mod 2^(8 * sz - m) = 0.
Definition idents_ok (l : idents) : Prop := NoDup (map fst l) /\ forall m sz a c, In (PidNet m sz a, c) l -> net_key_ok m sz a.
