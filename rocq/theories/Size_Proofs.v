(** Lemmas on sizes and bandwidth. *)
From Coq Require Import ZArith List Bool Lia ZifyBool ZifyNat.
From Verif Require Import Base Arith_Model Double Double_Proofs Clean_Model Control_Model Packet_Model Size_Model.
Import ListNotations.
Open Scope Z_scope.
Ltac Zify.zify_post_hook ::= Z.div_mod_to_equations.

Definition M53 : Z := 2^53.
(** the fraction [x] lies between (ln/ld) (n/d) and (un/ud) (n/d) *)
Definition near (x : Z * Z) (n d ln ld un ud : Z) : Prop :=
  0 <= fst x /\ 0 < snd x /\ 0 <= n /\ 0 < d /\ 0 <= ln /\ 0 < ld /\ 0 < un /\ 0 < ud /\
  ln * (n * snd x) <= ld * (fst x * d) /\ ud * (fst x * d) <= un * (n * snd x).

Lemma near_round : forall n d, 0 <= n -> 0 < d -> near (b64 n d) n d (M53 - 1) M53 (M53 + 1) M53.
Proof.
  intros n d Hn Hd. pose proof (b64_err n d Hn Hd). pose proof (b64_nonneg n d Hn Hd). pose proof (b64_den n d).
  destruct (b64 n d) as [p q]. unfold near. cbn [fst snd] in *. unfold M53. change (2^53) with 9007199254740992 in *.
  repeat split; lia.
Qed.

Lemma mulmono : forall a b c d, 0 <= a -> 0 <= c -> a <= b -> c <= d -> a * c <= b * d.
Proof. intros. apply Z.mul_le_mono_nonneg; lia. Qed.

Lemma near_trans : forall x n d p q l1 l2 u1 u2 l3 l4 u3 u4, 0 <= p -> 0 < q ->
  near x p q l1 l2 u1 u2 -> near (p, q) n d l3 l4 u3 u4 -> near x n d (l1 * l3) (l2 * l4) (u1 * u3) (u2 * u4).
Proof.
  intros [a b] n d p q l1 l2 u1 u2 l3 l4 u3 u4 Hp Hq (A1 & A2 & _ & _ & A5 & A6 & A7 & A8 & A9 & A10) (_ & _ & B3 & B4 & B5 & B6 & B7 & B8 & B9 & B10).
  unfold near in *. cbn [fst snd] in *. repeat split; try lia; try nia.
  - (* l1 (p b) <= l2 (a q), l3 (n q) <= l4 (p d) *)
    apply (Z.mul_le_mono_pos_l _ _ q); [lia|].
    replace (q * (l1 * l3 * (n * b))) with ((l1 * b) * (l3 * (n * q))) by ring.
    apply Z.le_trans with ((l1 * b) * (l4 * (p * d))); [apply Z.mul_le_mono_nonneg_l; nia|].
    replace ((l1 * b) * (l4 * (p * d))) with ((l4 * d) * (l1 * (p * b))) by ring.
    replace (q * (l2 * l4 * (a * d))) with ((l4 * d) * (l2 * (a * q))) by ring.
    apply Z.mul_le_mono_nonneg_l; nia.
  - apply (Z.mul_le_mono_pos_l _ _ q); [lia|].
    replace (q * (u1 * u3 * (n * b))) with ((u1 * b) * (u3 * (n * q))) by ring.
    apply Z.le_trans with ((u1 * b) * (u4 * (p * d))); [|apply Z.mul_le_mono_nonneg_l; nia].
    replace ((u1 * b) * (u4 * (p * d))) with ((u4 * d) * (u1 * (p * b))) by ring.
    replace (q * (u2 * u4 * (a * d))) with ((u4 * d) * (u2 * (a * q))) by ring.
    apply Z.mul_le_mono_nonneg_l; nia.
Qed.

Lemma near_mul : forall x y n d n' d' l1 l2 u1 u2 l3 l4 u3 u4,
  near x n d l1 l2 u1 u2 -> near y n' d' l3 l4 u3 u4 ->
  near (fst x * fst y, snd x * snd y) (n * n') (d * d') (l1 * l3) (l2 * l4) (u1 * u3) (u2 * u4).
Proof.
  intros [a b] [a' b'] n d n' d' l1 l2 u1 u2 l3 l4 u3 u4 (A1 & A2 & A3 & A4 & A5 & A6 & A7 & A8 & A9 & A10) (B1 & B2 & B3 & B4 & B5 & B6 & B7 & B8 & B9 & B10).
  unfold near in *. cbn [fst snd] in *. repeat split; try (repeat first [apply Z.mul_pos_pos | apply Z.mul_nonneg_nonneg]; lia).
  - replace (l1 * l3 * (n * n' * (b * b'))) with ((l1 * (n * b)) * (l3 * (n' * b'))) by ring.
    replace (l2 * l4 * (a * a' * (d * d'))) with ((l2 * (a * d)) * (l4 * (a' * d'))) by ring. apply mulmono; auto; repeat apply Z.mul_nonneg_nonneg; lia.
  - replace (u1 * u3 * (n * n' * (b * b'))) with ((u1 * (n * b)) * (u3 * (n' * b'))) by ring.
    replace (u2 * u4 * (a * a' * (d * d'))) with ((u2 * (a * d)) * (u4 * (a' * d'))) by ring. apply mulmono; auto; repeat apply Z.mul_nonneg_nonneg; lia.
Qed.

Lemma near_inv : forall x n d l1 l2 u1 u2, 0 < n -> 0 < fst x -> 0 < l1 -> near x n d l1 l2 u1 u2 -> near (snd x, fst x) d n u2 u1 l2 l1.
Proof.
  intros [a b] n d l1 l2 u1 u2 Hn Ha Hl (A1 & A2 & A3 & A4 & A5 & A6 & A7 & A8 & A9 & A10). unfold near in *. cbn [fst snd] in *.
  replace (d * a) with (a * d) by ring. replace (b * n) with (n * b) by ring. repeat split; lia.
Qed.

Lemma near_pos : forall x n d l1 l2 u1 u2, 0 < n -> 0 < l1 -> near x n d l1 l2 u1 u2 -> 0 < fst x.
Proof.
  intros [a b] n d l1 l2 u1 u2 Hn Hl (A1 & A2 & A3 & A4 & A5 & A6 & A7 & A8 & A9 & A10). cbn [fst snd] in *.
  destruct (Z.eq_dec a 0); [|lia]. subst a. rewrite Z.mul_0_l, Z.mul_0_r in A9. pose proof (Z.mul_pos_pos n b Hn A2). nia.
Qed.

Lemma near_exact : forall n, 0 <= n < 2^53 -> near (d_int n) n 1 1 1 1 1.
Proof.
  intros n Hn. pose proof (b64_int n ltac:(lia)) as E. pose proof (b64_den n 1) as P. unfold d_int, near. destruct (b64 n 1) as [p q]. cbn [fst snd] in *.
  repeat split; try lia; nia.
Qed.

Lemma near_rounded : forall p q n d l1 l2 u1 u2, near (p, q) n d l1 l2 u1 u2 ->
  near (b64 p q) n d ((M53 - 1) * l1) (M53 * l2) ((M53 + 1) * u1) (M53 * u2).
Proof.
  intros p q n d l1 l2 u1 u2 A. assert (P := A). destruct P as (P & Q & _). cbn [fst snd] in *.
  eapply near_trans; [exact P|exact Q|apply near_round; assumption|exact A].
Qed.

Fixpoint zsum (l : list Z) : Z := match l with [] => 0 | x :: r => x + zsum r end.

Lemma zsum_nonneg : forall l, Forall (fun x => 0 <= x) l -> 0 <= zsum l.
Proof. induction 1; cbn [zsum]; lia. Qed.

Lemma total_acc : forall l a, 0 <= a -> Forall (fun x => 0 <= x) l -> a + zsum l < M64 -> fold_left OWPNum64Add l a = a + zsum l.
Proof.
  induction l as [|x l IH]; intros a Ha F B; cbn [fold_left zsum] in *; [lia|]. apply Forall_cons_iff in F. destruct F as [F1 F2].
  pose proof (zsum_nonneg l F2). unfold OWPNum64Add at 2. unfold u64. rewrite Z.mod_small by lia. rewrite IH; auto; lia.
Qed.
Lemma total_sum : forall l, Forall (fun x => 0 <= x) l -> zsum l < M64 -> total_delay l = zsum l.
Proof. intros. unfold total_delay. rewrite total_acc; auto; lia. Qed.

Lemma near_num64 : forall x, 0 < x -> near (num64_double x) x M32 ((M53 - 1) * ((M53 - 1) * 1)) (M53 * (M53 * 1)) ((M53 + 1) * ((M53 + 1) * 1)) (M53 * (M53 * 1)).
Proof.
  intros x Hx. unfold num64_double. pose proof (near_round x 1 ltac:(lia) ltac:(lia)) as A. fold (d_int x) in A.
  pose proof (near_exact M32 ltac:(lia)) as B. assert (P : 0 < fst (d_int M32)) by (vm_compute; reflexivity).
  pose proof (near_inv (d_int M32) M32 1 1 1 1 1 ltac:(lia) P ltac:(lia) B) as B'.
  pose proof (near_mul _ _ _ _ _ _ _ _ _ _ _ _ _ _ A B') as C. cbn [fst snd] in C. rewrite Z.mul_1_r, Z.mul_1_l in C.
  apply near_rounded. exact C.
Qed.

Lemma near_rate : forall l, l <> [] -> Z.of_nat (length l) < M32 -> Forall (fun x => 0 <= x) l -> 0 < zsum l < M64 ->
  near (packet_rate l) (Z.of_nat (length l) * M32) (zsum l) ((M53 - 1) * (M53 * M53)) (M53 * ((M53 + 1) * (M53 + 1))) ((M53 + 1) * (M53 * M53)) (M53 * ((M53 - 1) * (M53 - 1))).
Proof.
  intros l NE HL F HS. unfold packet_rate. destruct l as [|x r]; [congruence|]. remember (x :: r) as l. rewrite (total_sum l F (proj2 HS)). destruct (Z.leb_spec (zsum l) 0); [lia|].
  pose proof (near_exact (Z.of_nat (length l)) ltac:(lia)) as A. pose proof (near_num64 (zsum l) ltac:(lia)) as B.
  assert (LP : 0 < (M53 - 1) * ((M53 - 1) * 1)) by (vm_compute; reflexivity). assert (ZP : 0 < zsum l) by lia.
  pose proof (near_pos _ _ _ _ _ _ _ ZP LP B) as P. pose proof (near_inv _ _ _ _ _ _ _ ZP P LP B) as B'.
  pose proof (near_mul _ _ _ _ _ _ _ _ _ _ _ _ _ _ A B') as C. cbn [fst snd] in C. rewrite !Z.mul_1_l, !Z.mul_1_r in C.
  apply near_rounded. exact C.
Qed.

Lemma near_bandwidth : forall l size, l <> [] -> Z.of_nat (length l) < M32 -> Forall (fun x => 0 <= x) l -> 0 < zsum l < M64 -> 0 <= size < M32 ->
  near (d_mul (d_mul (packet_rate l) (d_int size)) (d_int 8)) (Z.of_nat (length l) * M32 * size * 8) (zsum l)
    ((M53 - 1) * ((M53 - 1) * ((M53 - 1) * (M53 * M53)))) (M53 * (M53 * (M53 * ((M53 + 1) * (M53 + 1)))))
    ((M53 + 1) * ((M53 + 1) * ((M53 + 1) * (M53 * M53)))) (M53 * (M53 * (M53 * ((M53 - 1) * (M53 - 1))))).
Proof.
  intros l size NE HL F HS Hz. pose proof (near_rate l NE HL F HS) as A. pose proof (near_exact size ltac:(lia)) as B. pose proof (near_exact 8 ltac:(lia)) as B8.
  set (L1 := (M53 - 1) * (M53 * M53)) in *. set (L2 := M53 * ((M53 + 1) * (M53 + 1))) in *. set (U1 := (M53 + 1) * (M53 * M53)) in *. set (U2 := M53 * ((M53 - 1) * (M53 - 1))) in *.
  clearbody L1 L2 U1 U2.
  assert (S1 : near (d_mul (packet_rate l) (d_int size)) (Z.of_nat (length l) * M32 * size) (zsum l) ((M53 - 1) * L1) (M53 * L2) ((M53 + 1) * U1) (M53 * U2)).
  { pose proof (near_mul _ _ _ _ _ _ _ _ _ _ _ _ _ _ A B) as C. rewrite !Z.mul_1_r in C. unfold d_mul.
    apply near_rounded. exact C. }
  pose proof (near_mul _ _ _ _ _ _ _ _ _ _ _ _ _ _ S1 B8) as C. rewrite !Z.mul_1_r in C. unfold d_mul at 1.
  apply near_rounded. exact C.
Qed.

Lemma trunc_near : forall x n d, near x n d ((M53 - 1) * ((M53 - 1) * ((M53 - 1) * (M53 * M53)))) (M53 * (M53 * (M53 * ((M53 + 1) * (M53 + 1)))))
    ((M53 + 1) * ((M53 + 1) * ((M53 + 1) * (M53 * M53)))) (M53 * (M53 * (M53 * ((M53 - 1) * (M53 - 1))))) ->
  d_trunc x * d * 2^50 <= n * (2^50 + 1) /\ n * (2^50 - 1) < (d_trunc x + 1) * d * 2^50.
Proof.
  intros [p q] n d (A1 & A2 & A3 & A4 & A5 & A6 & A7 & A8 & A9 & A10). unfold d_trunc. cbn [fst snd] in *.
  assert (LO : 2^50 * (p * d) <= (2^50 + 1) * (n * q)).
  { set (a := M53 * (M53 * (M53 * ((M53 - 1) * (M53 - 1))))) in *. set (b := (M53 + 1) * ((M53 + 1) * ((M53 + 1) * (M53 * M53)))) in *.
    assert (K : 2^50 * b <= (2^50 + 1) * a) by (vm_compute; discriminate). 
    pose proof (Z.mul_nonneg_nonneg n q A3 ltac:(lia)) as N1. set (X := p * d) in *. set (Y := n * q) in *. clearbody a b X Y.
    apply (Z.mul_le_mono_pos_l _ _ a); [lia|]. set (w := 2^50) in *. assert (0 < w) by (unfold w; lia). clearbody w.
    apply Z.le_trans with (w * (b * Y)); [nia|]. nia. }
  assert (HI : (2^50 - 1) * (n * q) <= 2^50 * (p * d)).
  { set (a := M53 * (M53 * (M53 * ((M53 + 1) * (M53 + 1))))) in *. set (b := (M53 - 1) * ((M53 - 1) * ((M53 - 1) * (M53 * M53)))) in *.
    assert (K : (2^50 - 1) * a <= 2^50 * b) by (vm_compute; discriminate). 
    pose proof (Z.mul_nonneg_nonneg n q A3 ltac:(lia)) as N1. set (X := p * d) in *. set (Y := n * q) in *. clearbody a b X Y.
    apply (Z.mul_le_mono_pos_l _ _ a); [lia|]. set (w := 2^50) in *. assert (0 < w) by (unfold w; lia). clearbody w.
    apply Z.le_trans with (w * (b * Y)); [nia|]. nia. }
  pose proof (Z.div_mod p q ltac:(lia)) as DM. pose proof (Z.mod_pos_bound p q A2) as MB. set (t := p / q) in *. set (r := p mod q) in *. clearbody t r. subst p.
  set (w := 2^50) in *. assert (1 < w) by (unfold w; lia). clearbody w. clear A9 A10 A5 A6 A7 A8. split.
  - apply (Z.mul_le_mono_pos_l _ _ q); [lia|]. apply Z.le_trans with (w * ((q * t + r) * d)); [|nia].
    replace (q * (t * d * w)) with (w * ((q * t) * d)) by ring. apply Z.mul_le_mono_nonneg_l; [lia|]. apply Z.mul_le_mono_nonneg_r; lia.
  - apply (Z.mul_lt_mono_pos_l q); [lia|]. apply Z.le_lt_trans with (w * ((q * t + r) * d)); [nia|].
    replace (q * ((t + 1) * d * w)) with (w * ((q * t + q) * d)) by ring. apply Z.mul_lt_mono_pos_l; [lia|]. apply Z.mul_lt_mono_pos_r; lia.
Qed.
