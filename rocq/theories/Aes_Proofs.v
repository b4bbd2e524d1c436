(** Proofs about the AES implementation: it computes FIPS 197, and decryption inverts encryption. *)
From Coq Require Import ZArith List Bool Lia ZifyBool ZifyNat Btauto.
From Verif Require Import Base BaseLemmas Aes_Tables Aes_Model Aes_Spec.
Import ListNotations.
Open Scope Z_scope.
Ltac Zify.zify_post_hook ::= Z.div_mod_to_equations.

Definition W (a b c d : Z) : Z := Z.lxor (Z.lxor (Z.lxor (Z.shiftl a 24) (Z.shiftl b 16)) (Z.shiftl c 8)) d.

(** ** octets and words *)
Lemma octet_bits : forall x n, is_u8 x -> 8 <= n -> Z.testbit x n = false.
Proof.
  intros x n [A B] N. destruct (Z.eq_dec x 0) as [->|X]; [apply Z.bits_0|].
  apply Z.bits_above_log2; auto. assert (Z.log2 x < 8); [|lia]. apply Z.log2_lt_pow2; cbn; lia.
Qed.
Lemma lxor_octet : forall x y, is_u8 x -> is_u8 y -> is_u8 (Z.lxor x y).
Proof.
  intros x y A B. assert (P : 0 <= Z.lxor x y) by (apply Z.lxor_nonneg; unfold is_u8 in *; lia).
  split; auto. destruct (Z.eq_dec (Z.lxor x y) 0) as [->|X]; [lia|]. change 256 with (2 ^ 8). apply Z.log2_lt_pow2; [lia|].
  destruct (Z_lt_le_dec (Z.log2 (Z.lxor x y)) 8); auto. exfalso.
  assert (T : Z.testbit (Z.lxor x y) (Z.log2 (Z.lxor x y)) = true) by (apply Z.bit_log2; lia).
  rewrite Z.lxor_spec, !octet_bits in T by auto. discriminate.
Qed.

Lemma W_xor : forall a b c d a' b' c' d',
  Z.lxor (W a b c d) (W a' b' c' d') = W (Z.lxor a a') (Z.lxor b b') (Z.lxor c c') (Z.lxor d d').
Proof.
  intros. unfold W. rewrite !Z.shiftl_lxor. apply Z.bits_inj'. intros n _. rewrite !Z.lxor_spec.
  repeat match goal with |- context [Z.testbit ?x n] => destruct (Z.testbit x n) end; reflexivity.
Qed.

Ltac bits8 :=
  repeat match goal with
  | |- context [Z.testbit ?x ?k] =>
      match goal with H : is_u8 x |- _ => first
        [ rewrite (octet_bits x k H) by lia
        | rewrite (Z.testbit_neg_r x k) by lia ] end
  end.

Lemma W_bits : forall a b c d n, is_u8 a -> is_u8 b -> is_u8 c -> is_u8 d -> 0 <= n ->
  Z.testbit (W a b c d) n =
  if n <? 8 then Z.testbit d n else if n <? 16 then Z.testbit c (n - 8) else if n <? 24 then Z.testbit b (n - 16) else Z.testbit a (n - 24).
Proof.
  intros a b c d n A B C D N. unfold W. rewrite !Z.lxor_spec, !Z.shiftl_spec by lia.
  destruct (n <? 8) eqn:X1; [|destruct (n <? 16) eqn:X2; [|destruct (n <? 24) eqn:X3]]; bits8;
    rewrite ?xorb_false_r, ?xorb_false_l; reflexivity.
Qed.

Lemma W_o : forall a b c d, is_u8 a -> is_u8 b -> is_u8 c -> is_u8 d ->
  o3 (W a b c d) = a /\ o2 (W a b c d) = b /\ o1 (W a b c d) = c /\ o0 (W a b c d) = d.
Proof.
  intros a b c d A B C D. change 255 with (Z.ones 8). unfold o3, o2, o1, o0. change 255 with (Z.ones 8).
  repeat split; apply Z.bits_inj'; intros n N; rewrite ?Z.land_spec, ?Z.shiftr_spec, ?W_bits by (auto; lia);
    try (destruct (Z_lt_le_dec n 8); [rewrite Z.ones_spec_low by lia | rewrite Z.ones_spec_high by lia]);
    rewrite ?andb_true_r, ?andb_false_r.
  - replace (n + 24 <? 8) with false by lia. replace (n + 24 <? 16) with false by lia. replace (n + 24 <? 24) with false by lia. f_equal; lia.
  - replace (n + 16 <? 8) with false by lia. replace (n + 16 <? 16) with false by lia. replace (n + 16 <? 24) with true by lia. f_equal; lia.
  - symmetry; apply octet_bits; auto.
  - replace (n + 8 <? 8) with false by lia. replace (n + 8 <? 16) with true by lia. f_equal; lia.
  - symmetry; apply octet_bits; auto.
  - replace (n <? 8) with true by lia. reflexivity.
  - symmetry; apply octet_bits; auto.
Qed.

Lemma PUT_W : forall a b c d, is_u8 a -> is_u8 b -> is_u8 c -> is_u8 d -> PUTU32 (W a b c d) = [a; b; c; d].
Proof.
  intros a b c d A B C D. destruct (W_o a b c d A B C D) as (E1 & E2 & E3 & E4).
  unfold o3, o2, o1, o0, PUTU32, u8 in *. change 255 with (Z.ones 8) in *. rewrite !Z.land_ones in * by lia. change (2 ^ 8) with 256 in *.
  rewrite E1, E2, E3, E4. unfold is_u8 in A. rewrite Z.mod_small by lia. reflexivity.
Qed.

(** ** exhaustive checks over the octets *)
Lemma octet_in : forall x, is_u8 x -> In x all_octets.
Proof.
  intros x X. unfold all_octets. apply in_map_iff. exists (Z.to_nat x). unfold is_u8 in X. split; [lia|]. apply in_seq. lia.
Qed.
Lemma for_octets : forall P : Z -> bool, forallb P all_octets = true -> forall x, is_u8 x -> P x = true.
Proof. intros P A x X. apply (proj1 (forallb_forall P all_octets) A), octet_in, X. Qed.

Definition SB : list Z := Eval vm_compute in map sbox all_octets.
Definition ISB : list Z := Eval vm_compute in
  map (fun y => match find (fun x => nth (Z.to_nat x) SB 0 =? y) all_octets with Some x => x | None => 0 end) all_octets.

Lemma sbox_tab : forall x, is_u8 x -> sbox x = at_ SB x.
Proof. intros x X. apply Z.eqb_eq. revert x X. apply for_octets. vm_compute. reflexivity. Qed.

Lemma inv_sbox_tab : forall x, is_u8 x -> inv_sbox x = at_ ISB x.
Proof.
  intros x X. unfold inv_sbox.
  assert (Q : forall y, is_u8 y -> is_u8 (at_ ISB y) /\ at_ SB (at_ ISB y) = y /\ at_ ISB (at_ SB y) = y).
  { intros y Y. assert (E : forall y, is_u8 y -> ((0 <=? at_ ISB y) && (at_ ISB y <? 256) && (at_ SB (at_ ISB y) =? y) && (at_ ISB (at_ SB y) =? y)) = true).
    { apply for_octets. vm_compute. reflexivity. }
    specialize (E y Y). unfold is_u8. lia. }
  destruct (find (fun z => sbox z =? x) all_octets) as [z|] eqn:F.
  - apply find_some in F. destruct F as [I F]. apply Z.eqb_eq in F.
    assert (Zo : is_u8 z). { unfold all_octets in I. apply in_map_iff in I. destruct I as (k & K1 & K2). apply in_seq in K2. unfold is_u8. lia. }
    rewrite sbox_tab in F by auto. rewrite <- F. symmetry. apply Q. auto.
  - exfalso.
    pose proof (find_none _ _ F (at_ ISB x) (octet_in _ (proj1 (Q x X)))) as N. cbv beta in N.
    rewrite sbox_tab in N by (apply Q; auto). rewrite (proj1 (proj2 (Q x X))) in N. rewrite Z.eqb_refl in N. discriminate.
Qed.

Lemma sbox_octet : forall x, is_u8 x -> is_u8 (sbox x).
Proof.
  intros x X. rewrite sbox_tab by auto.
  assert (E : forall y, is_u8 y -> ((0 <=? at_ SB y) && (at_ SB y <? 256)) = true) by (apply for_octets; vm_compute; reflexivity).
  specialize (E x X). unfold is_u8. lia.
Qed.
Lemma inv_sbox_octet : forall x, is_u8 x -> is_u8 (inv_sbox x).
Proof.
  intros x X. rewrite inv_sbox_tab by auto.
  assert (E : forall y, is_u8 y -> ((0 <=? at_ ISB y) && (at_ ISB y <? 256)) = true) by (apply for_octets; vm_compute; reflexivity).
  specialize (E x X). unfold is_u8. lia.
Qed.
Lemma inv_sbox_sbox : forall x, is_u8 x -> inv_sbox (sbox x) = x.
Proof.
  intros x X. rewrite inv_sbox_tab by (apply sbox_octet; auto). rewrite sbox_tab by auto. apply Z.eqb_eq. revert x X.
  apply (for_octets (fun x => at_ ISB (at_ SB x) =? x)). vm_compute. reflexivity.
Qed.
Lemma sbox_inv_sbox : forall x, is_u8 x -> sbox (inv_sbox x) = x.
Proof.
  intros x X. rewrite sbox_tab by (apply inv_sbox_octet; auto). rewrite inv_sbox_tab by auto. apply Z.eqb_eq. revert x X.
  apply (for_octets (fun x => at_ SB (at_ ISB x) =? x)). vm_compute. reflexivity.
Qed.

(** ** multiplication *)
Lemma xtime_octet : forall x, is_u8 x -> is_u8 (xtime x).
Proof.
  intros x X. assert (E : forall y, is_u8 y -> ((0 <=? xtime y) && (xtime y <? 256)) = true) by (apply for_octets; vm_compute; reflexivity).
  specialize (E x X). unfold is_u8. lia.
Qed.
Lemma xtime_xor : forall x y, is_u8 x -> is_u8 y -> xtime (Z.lxor x y) = Z.lxor (xtime x) (xtime y).
Proof.
  intros x y X Y. apply Z.eqb_eq.
  assert (E : forall x, is_u8 x -> forallb (fun y => xtime (Z.lxor x y) =? Z.lxor (xtime x) (xtime y)) all_octets = true).
  { apply (for_octets (fun x => forallb (fun y => xtime (Z.lxor x y) =? Z.lxor (xtime x) (xtime y)) all_octets)). vm_compute. reflexivity. }
  apply (for_octets _ (E x X) y Y).
Qed.
Lemma gmul_bits_octet : forall n a b, is_u8 a -> is_u8 (gmul_bits n a b).
Proof.
  induction n as [|n IH]; intros a b A; [cbn; split; lia|]. cbn [gmul_bits]. apply lxor_octet; [|apply IH, xtime_octet, A].
  destruct (Z.odd b); auto. split; lia.
Qed.
Lemma gmul_octet : forall k a, is_u8 a -> is_u8 (gmul k a).
Proof. intros. now apply gmul_bits_octet. Qed.
Lemma gmul_bits_xor : forall n a a' b, is_u8 a -> is_u8 a' -> gmul_bits n (Z.lxor a a') b = Z.lxor (gmul_bits n a b) (gmul_bits n a' b).
Proof.
  induction n as [|n IH]; intros a a' b A A'; [reflexivity|]. cbn [gmul_bits].
  rewrite xtime_xor, IH by auto using xtime_octet. destruct (Z.odd b);
  apply Z.bits_inj'; intros i _; rewrite !Z.lxor_spec, ?Z.bits_0;
  repeat match goal with |- context [Z.testbit ?x i] => destruct (Z.testbit x i) end; reflexivity.
Qed.
Lemma gmul_xor : forall k a a', is_u8 a -> is_u8 a' -> gmul k (Z.lxor a a') = Z.lxor (gmul k a) (gmul k a').
Proof. intros. now apply gmul_bits_xor. Qed.
Lemma gmul_1 : forall a, is_u8 a -> gmul 1 a = a.
Proof. intros a A. apply Z.eqb_eq. revert a A. apply for_octets. vm_compute. reflexivity. Qed.

(** ** the tables *)
Ltac tab := intros x X; rewrite ?sbox_tab, ?inv_sbox_tab by auto; apply Z.eqb_eq; revert x X; apply for_octets; vm_compute; reflexivity.
Lemma Te0_spec : forall x, is_u8 x -> at_ Te0 x = W (gmul 2 (sbox x)) (sbox x) (sbox x) (gmul 3 (sbox x)). Proof. tab. Qed.
Lemma Te1_spec : forall x, is_u8 x -> at_ Te1 x = W (gmul 3 (sbox x)) (gmul 2 (sbox x)) (sbox x) (sbox x). Proof. tab. Qed.
Lemma Te2_spec : forall x, is_u8 x -> at_ Te2 x = W (sbox x) (gmul 3 (sbox x)) (gmul 2 (sbox x)) (sbox x). Proof. tab. Qed.
Lemma Te3_spec : forall x, is_u8 x -> at_ Te3 x = W (sbox x) (sbox x) (gmul 3 (sbox x)) (gmul 2 (sbox x)). Proof. tab. Qed.
Lemma Te4_3 : forall x, is_u8 x -> Z.land (at_ Te4 x) 4278190080 = W (sbox x) 0 0 0. Proof. tab. Qed.
Lemma Te4_2 : forall x, is_u8 x -> Z.land (at_ Te4 x) 16711680 = W 0 (sbox x) 0 0. Proof. tab. Qed.
Lemma Te4_1 : forall x, is_u8 x -> Z.land (at_ Te4 x) 65280 = W 0 0 (sbox x) 0. Proof. tab. Qed.
Lemma Te4_0 : forall x, is_u8 x -> Z.land (at_ Te4 x) 255 = W 0 0 0 (sbox x). Proof. tab. Qed.
Lemma Te4_b : forall x, is_u8 x -> Z.land (at_ Te4 x) 255 = sbox x. Proof. tab. Qed.
Lemma Td0_spec : forall x, is_u8 x -> at_ Td0 x = W (gmul 14 (inv_sbox x)) (gmul 9 (inv_sbox x)) (gmul 13 (inv_sbox x)) (gmul 11 (inv_sbox x)). Proof. tab. Qed.
Lemma Td1_spec : forall x, is_u8 x -> at_ Td1 x = W (gmul 11 (inv_sbox x)) (gmul 14 (inv_sbox x)) (gmul 9 (inv_sbox x)) (gmul 13 (inv_sbox x)). Proof. tab. Qed.
Lemma Td2_spec : forall x, is_u8 x -> at_ Td2 x = W (gmul 13 (inv_sbox x)) (gmul 11 (inv_sbox x)) (gmul 14 (inv_sbox x)) (gmul 9 (inv_sbox x)). Proof. tab. Qed.
Lemma Td3_spec : forall x, is_u8 x -> at_ Td3 x = W (gmul 9 (inv_sbox x)) (gmul 13 (inv_sbox x)) (gmul 11 (inv_sbox x)) (gmul 14 (inv_sbox x)). Proof. tab. Qed.
Lemma Td4_3 : forall x, is_u8 x -> Z.land (at_ Td4 x) 4278190080 = W (inv_sbox x) 0 0 0. Proof. tab. Qed.
Lemma Td4_2 : forall x, is_u8 x -> Z.land (at_ Td4 x) 16711680 = W 0 (inv_sbox x) 0 0. Proof. tab. Qed.
Lemma Td4_1 : forall x, is_u8 x -> Z.land (at_ Td4 x) 65280 = W 0 0 (inv_sbox x) 0. Proof. tab. Qed.
Lemma Td4_0 : forall x, is_u8 x -> Z.land (at_ Td4 x) 255 = W 0 0 0 (inv_sbox x). Proof. tab. Qed.

(** ** states *)
Definition blk (s : list Z) : Prop := length s = 16%nat /\ octets s.
Definition quad_of (s : list Z) : quad := (GETU32 0 s, GETU32 4 s, GETU32 8 s, GETU32 12 s).
(** the words rk[p .. p+3] hold the round key kb *)
Definition keyed (rk : list Z) (p : nat) (kb : list Z) : Prop :=
  nth p rk 0 = GETU32 0 kb /\ nth (p + 1) rk 0 = GETU32 4 kb /\ nth (p + 2) rk 0 = GETU32 8 kb /\ nth (p + 3) rk 0 = GETU32 12 kb.

Ltac d16 s L :=
  do 16 (destruct s as [|? s]; [discriminate L|]); destruct s; [clear L|discriminate L].
Ltac dF H := repeat (apply Forall_cons_iff in H; let H0 := fresh "O" in destruct H as [H0 H]); clear H.
Ltac dblk s B := let L := fresh "L" in destruct B as [L B]; d16 s L; unfold octets in B; dF B.

Global Opaque sbox inv_sbox gmul W at_ xtime.

Lemma GET_cons : forall a b c d l, GETU32 0 (a :: b :: c :: d :: l) = W a b c d.
Proof. reflexivity. Qed.
Lemma GET4 : forall x0 x1 x2 x3 a b c d l, GETU32 4 (x0 :: x1 :: x2 :: x3 :: a :: b :: c :: d :: l) = W a b c d.
Proof. reflexivity. Qed.
Lemma GET8 : forall x0 x1 x2 x3 x4 x5 x6 x7 a b c d l, GETU32 8 (x0 :: x1 :: x2 :: x3 :: x4 :: x5 :: x6 :: x7 :: a :: b :: c :: d :: l) = W a b c d.
Proof. reflexivity. Qed.
Lemma GET12 : forall x0 x1 x2 x3 x4 x5 x6 x7 x8 x9 xa xb a b c d l,
  GETU32 12 (x0 :: x1 :: x2 :: x3 :: x4 :: x5 :: x6 :: x7 :: x8 :: x9 :: xa :: xb :: a :: b :: c :: d :: l) = W a b c d.
Proof. reflexivity. Qed.

(** the transformations keep blocks blocks *)
Lemma map_blk : forall f s, (forall x, is_u8 x -> is_u8 (f x)) -> blk s -> blk (map f s).
Proof.
  intros f s F [L O]. split; [now rewrite map_length|]. unfold octets in *. apply Forall_map. eapply Forall_impl; [|exact O]. exact F.
Qed.
Lemma ark_blk : forall k s, blk k -> blk s -> blk (AddRoundKey k s).
Proof.
  intros k s K B. dblk k K. dblk s B. split; [reflexivity|]. unfold AddRoundKey, octets. cbn [combine map fst snd].
  repeat (constructor; [apply lxor_octet; assumption|]). constructor.
Qed.
Ltac shape := cbn [state_of flat_map map cell app nth Nat.add Nat.mul Nat.modulo Nat.divmod Nat.sub fst snd].
Lemma shift_blk : forall s, blk s -> blk (ShiftRows s).
Proof. intros s B. dblk s B. split; [reflexivity|]. unfold ShiftRows, octets. unfold state_of, cell. cbn. repeat (constructor; [assumption|]). constructor. Qed.
Lemma inv_shift_blk : forall s, blk s -> blk (InvShiftRows s).
Proof. intros s B. dblk s B. split; [reflexivity|]. unfold InvShiftRows, octets. unfold state_of, cell. cbn. repeat (constructor; [assumption|]). constructor. Qed.
Lemma mixed_blk : forall a b c d s, blk s -> blk (mixed a b c d s).
Proof.
  intros a b c d s B. dblk s B. split; [reflexivity|]. unfold mixed, octets. unfold state_of, cell. cbn.
  repeat (constructor; [repeat (apply lxor_octet); apply gmul_octet; assumption|]). constructor.
Qed.
Lemma sub_blk : forall s, blk s -> blk (SubBytes s).
Proof. intros s. apply map_blk, sbox_octet. Qed.
Lemma inv_sub_blk : forall s, blk s -> blk (InvSubBytes s).
Proof. intros s. apply map_blk, inv_sbox_octet. Qed.

Lemma load_spec : forall rk b kb, blk b -> blk kb -> keyed rk 0 kb -> load rk b = quad_of (AddRoundKey kb b).
Proof.
  intros rk b kb B K (K0 & K1 & K2 & K3). unfold load. cbn [Nat.add] in *. rewrite K0, K1, K2, K3. dblk b B. dblk kb K.
  unfold quad_of, AddRoundKey. cbn [combine map fst snd]. rewrite !GET_cons, !GET4, !GET8, !GET12, !W_xor. reflexivity.
Qed.

Ltac Wo := rewrite ?(fun a b c d A B C D => proj1 (W_o a b c d A B C D)),
  ?(fun a b c d A B C D => proj1 (proj2 (W_o a b c d A B C D))),
  ?(fun a b c d A B C D => proj1 (proj2 (proj2 (W_o a b c d A B C D)))),
  ?(fun a b c d A B C D => proj2 (proj2 (proj2 (W_o a b c d A B C D)))) by assumption.
Ltac xorac := apply Z.bits_inj'; intros ?i _; rewrite !Z.lxor_spec, ?Z.bits_0;
  repeat match goal with |- context [Z.testbit ?x ?i] => destruct (Z.testbit x i) end; reflexivity.

Lemma mix4_te : forall a b c d a' b' c' d' a'' b'' c'' d'' a3 b3 c3 d3 k0 k1 k2 k3,
  is_u8 a -> is_u8 b -> is_u8 c -> is_u8 d -> is_u8 a' -> is_u8 b' -> is_u8 c' -> is_u8 d' ->
  is_u8 a'' -> is_u8 b'' -> is_u8 c'' -> is_u8 d'' -> is_u8 a3 -> is_u8 b3 -> is_u8 c3 -> is_u8 d3 ->
  mix4 Te0 Te1 Te2 Te3 (W a b c d) (W a' b' c' d') (W a'' b'' c'' d'') (W a3 b3 c3 d3) (W k0 k1 k2 k3) =
  W (Z.lxor (Z.lxor (Z.lxor (gmul 2 (sbox a)) (gmul 3 (sbox b'))) (Z.lxor (gmul 1 (sbox c'')) (gmul 1 (sbox d3)))) k0)
    (Z.lxor (Z.lxor (Z.lxor (gmul 2 (sbox b')) (gmul 3 (sbox c''))) (Z.lxor (gmul 1 (sbox d3)) (gmul 1 (sbox a)))) k1)
    (Z.lxor (Z.lxor (Z.lxor (gmul 2 (sbox c'')) (gmul 3 (sbox d3))) (Z.lxor (gmul 1 (sbox a)) (gmul 1 (sbox b')))) k2)
    (Z.lxor (Z.lxor (Z.lxor (gmul 2 (sbox d3)) (gmul 3 (sbox a))) (Z.lxor (gmul 1 (sbox b')) (gmul 1 (sbox c'')))) k3).
Proof.
  intros. unfold mix4. Wo. rewrite Te0_spec, Te1_spec, Te2_spec, Te3_spec by assumption. rewrite !W_xor, !gmul_1 by (apply sbox_octet; assumption).
  f_equal; xorac.
Qed.

Lemma mix4_td : forall a b c d a' b' c' d' a'' b'' c'' d'' a3 b3 c3 d3 k0 k1 k2 k3,
  is_u8 a -> is_u8 b -> is_u8 c -> is_u8 d -> is_u8 a' -> is_u8 b' -> is_u8 c' -> is_u8 d' ->
  is_u8 a'' -> is_u8 b'' -> is_u8 c'' -> is_u8 d'' -> is_u8 a3 -> is_u8 b3 -> is_u8 c3 -> is_u8 d3 ->
  mix4 Td0 Td1 Td2 Td3 (W a b c d) (W a' b' c' d') (W a'' b'' c'' d'') (W a3 b3 c3 d3) (W k0 k1 k2 k3) =
  W (Z.lxor (Z.lxor (Z.lxor (gmul 14 (inv_sbox a)) (gmul 11 (inv_sbox b'))) (Z.lxor (gmul 13 (inv_sbox c'')) (gmul 9 (inv_sbox d3)))) k0)
    (Z.lxor (Z.lxor (Z.lxor (gmul 14 (inv_sbox b')) (gmul 11 (inv_sbox c''))) (Z.lxor (gmul 13 (inv_sbox d3)) (gmul 9 (inv_sbox a)))) k1)
    (Z.lxor (Z.lxor (Z.lxor (gmul 14 (inv_sbox c'')) (gmul 11 (inv_sbox d3))) (Z.lxor (gmul 13 (inv_sbox a)) (gmul 9 (inv_sbox b')))) k2)
    (Z.lxor (Z.lxor (Z.lxor (gmul 14 (inv_sbox d3)) (gmul 11 (inv_sbox a))) (Z.lxor (gmul 13 (inv_sbox b')) (gmul 9 (inv_sbox c'')))) k3).
Proof.
  intros. unfold mix4. Wo. rewrite Td0_spec, Td1_spec, Td2_spec, Td3_spec by assumption. rewrite !W_xor.
  f_equal; xorac.
Qed.

Lemma last4_te : forall a b c d a' b' c' d' a'' b'' c'' d'' a3 b3 c3 d3 k0 k1 k2 k3,
  is_u8 a -> is_u8 b -> is_u8 c -> is_u8 d -> is_u8 a' -> is_u8 b' -> is_u8 c' -> is_u8 d' ->
  is_u8 a'' -> is_u8 b'' -> is_u8 c'' -> is_u8 d'' -> is_u8 a3 -> is_u8 b3 -> is_u8 c3 -> is_u8 d3 ->
  last4 Te4 (W a b c d) (W a' b' c' d') (W a'' b'' c'' d'') (W a3 b3 c3 d3) (W k0 k1 k2 k3) =
  W (Z.lxor (sbox a) k0) (Z.lxor (sbox b') k1) (Z.lxor (sbox c'') k2) (Z.lxor (sbox d3) k3).
Proof.
  intros. unfold last4. Wo. rewrite Te4_3, Te4_2, Te4_1, Te4_0 by assumption. rewrite !W_xor, ?Z.lxor_0_l, ?Z.lxor_0_r. reflexivity.
Qed.
Lemma last4_td : forall a b c d a' b' c' d' a'' b'' c'' d'' a3 b3 c3 d3 k0 k1 k2 k3,
  is_u8 a -> is_u8 b -> is_u8 c -> is_u8 d -> is_u8 a' -> is_u8 b' -> is_u8 c' -> is_u8 d' ->
  is_u8 a'' -> is_u8 b'' -> is_u8 c'' -> is_u8 d'' -> is_u8 a3 -> is_u8 b3 -> is_u8 c3 -> is_u8 d3 ->
  last4 Td4 (W a b c d) (W a' b' c' d') (W a'' b'' c'' d'') (W a3 b3 c3 d3) (W k0 k1 k2 k3) =
  W (Z.lxor (inv_sbox a) k0) (Z.lxor (inv_sbox b') k1) (Z.lxor (inv_sbox c'') k2) (Z.lxor (inv_sbox d3) k3).
Proof.
  intros. unfold last4. Wo. rewrite Td4_3, Td4_2, Td4_1, Td4_0 by assumption. rewrite !W_xor, ?Z.lxor_0_l, ?Z.lxor_0_r. reflexivity.
Qed.

Lemma enc_round_spec : forall rk p s kb, blk s -> blk kb -> keyed rk p kb ->
  enc_round rk p (quad_of s) = quad_of (AddRoundKey kb (MixColumns (ShiftRows (SubBytes s)))).
Proof.
  intros rk p s kb B K (K0 & K1 & K2 & K3). unfold enc_round, quad_of. rewrite K0, K1, K2, K3. dblk s B. dblk kb K.
  rewrite !GET_cons, !GET4, !GET8, !GET12.
  rewrite !mix4_te by assumption. unfold AddRoundKey, MixColumns, mixed, ShiftRows, SubBytes, state_of, cell. cbn. reflexivity.
Qed.
Lemma dec_round_spec : forall rk p s kb, blk s -> blk kb -> keyed rk p kb ->
  dec_round rk p (quad_of s) = quad_of (AddRoundKey kb (InvMixColumns (InvSubBytes (InvShiftRows s)))).
Proof.
  intros rk p s kb B K (K0 & K1 & K2 & K3). unfold dec_round, quad_of. rewrite K0, K1, K2, K3. dblk s B. dblk kb K.
  rewrite !GET_cons, !GET4, !GET8, !GET12.
  rewrite !mix4_td by assumption. unfold AddRoundKey, InvMixColumns, mixed, InvShiftRows, InvSubBytes, state_of, cell. cbn. reflexivity.
Qed.
Lemma enc_last_spec : forall rk p s kb, blk s -> blk kb -> keyed rk p kb ->
  enc_last rk p (quad_of s) = AddRoundKey kb (ShiftRows (SubBytes s)).
Proof.
  intros rk p s kb B K (K0 & K1 & K2 & K3). unfold enc_last, quad_of. rewrite K0, K1, K2, K3. dblk s B. dblk kb K.
  rewrite !GET_cons, !GET4, !GET8, !GET12.
  rewrite !last4_te by assumption. rewrite !PUT_W by (apply lxor_octet; first [assumption | apply sbox_octet; assumption]). reflexivity.
Qed.
Lemma dec_last_spec : forall rk p s kb, blk s -> blk kb -> keyed rk p kb ->
  dec_last rk p (quad_of s) = AddRoundKey kb (InvSubBytes (InvShiftRows s)).
Proof.
  intros rk p s kb B K (K0 & K1 & K2 & K3). unfold dec_last, quad_of. rewrite K0, K1, K2, K3. dblk s B. dblk kb K.
  rewrite !GET_cons, !GET4, !GET8, !GET12.
  rewrite !last4_td by assumption. rewrite !PUT_W by (apply lxor_octet; first [assumption | apply inv_sbox_octet; assumption]). reflexivity.
Qed.

(** ** the key schedule *)
Definition ew (key : list Z) (i : nat) : list Z := nth i (expanded key (S i)) [].
Definition w4 (w : list Z) : Prop := exists a b c d, w = [a; b; c; d] /\ is_u8 a /\ is_u8 b /\ is_u8 c /\ is_u8 d.

Lemma mk4 : forall a b c d, is_u8 a -> is_u8 b -> is_u8 c -> is_u8 d -> w4 [a; b; c; d].
Proof. intros a b c d A B C D. exists a, b, c, d. auto. Qed.

Lemma expanded_len : forall key n, length (expanded key n) = n.
Proof. intros key n. induction n as [|n IH]; [reflexivity|]. cbn [expanded]. rewrite app_length, IH. cbn [length]. lia. Qed.
Lemma expanded_map : forall key n, expanded key n = map (ew key) (seq 0 n).
Proof.
  intros key n. induction n as [|n IH]; [reflexivity|]. rewrite seq_S, map_app, <- IH. cbn [map Nat.add].
  unfold ew. cbn [expanded]. f_equal. rewrite app_nth2 by (rewrite expanded_len; lia). rewrite expanded_len, Nat.sub_diag. reflexivity.
Qed.
Lemma expanded_nth : forall key n i, (i < n)%nat -> nth i (expanded key n) [] = ew key i.
Proof.
  intros key n i I. rewrite expanded_map. rewrite (nth_indep _ [] (ew key 0)) by (rewrite map_length, seq_length; lia).
  rewrite map_nth, seq_nth by lia. reflexivity.
Qed.
Lemma ew_eq : forall key i,
  ew key i = if (i <? 4)%nat then firstn 4 (skipn (4 * i) key)
             else if (i mod 4 =? 0)%nat then xorw (ew key (i - 4)) (xorw (SubWord (RotWord (ew key (i - 1)))) (Rcon (i / 4)))
             else xorw (ew key (i - 4)) (ew key (i - 1)).
Proof.
  intros key i. unfold ew at 1. cbn [expanded]. rewrite app_nth2 by (rewrite expanded_len; lia). rewrite expanded_len, Nat.sub_diag. cbn [nth].
  destruct (i <? 4)%nat eqn:L; [reflexivity|]. rewrite !expanded_nth by lia. reflexivity.
Qed.

Lemma xorw4 : forall a b, w4 a -> w4 b -> w4 (xorw a b) /\ GETU32 0 (xorw a b) = Z.lxor (GETU32 0 a) (GETU32 0 b).
Proof.
  intros a b (a0 & a1 & a2 & a3 & -> & A0 & A1 & A2 & A3) (b0 & b1 & b2 & b3 & -> & B0 & B1 & B2 & B3).
  unfold xorw. cbn [combine map fst snd]. split; [|rewrite !GET_cons, W_xor; reflexivity].
  apply mk4; apply lxor_octet; assumption.
Qed.
Lemma subrot4 : forall a, w4 a -> w4 (SubWord (RotWord a)).
Proof.
  intros a (a0 & a1 & a2 & a3 & -> & A0 & A1 & A2 & A3). unfold SubWord, RotWord. cbn [app map].
  apply mk4; apply sbox_octet; assumption.
Qed.
Lemma iter_xtime_octet : forall n, is_u8 (Nat.iter n xtime 1).
Proof. induction n as [|n IH]; [cbn; split; lia|]. cbn [Nat.iter]. apply xtime_octet, IH. Qed.
Lemma rcon4 : forall i, w4 (Rcon i).
Proof. intros i. unfold Rcon. apply mk4; [apply iter_xtime_octet| | |]; split; lia. Qed.

Lemma key4 : forall key i, blk key -> (i < 4)%nat -> w4 (firstn 4 (skipn (4 * i) key)) /\ GETU32 (4 * i) key = GETU32 0 (firstn 4 (skipn (4 * i) key)).
Proof.
  intros key i B I. dblk key B. do 4 (destruct i as [|i]; [split; [|reflexivity]; cbn; apply mk4; assumption|]). lia.
Qed.

Lemma ew_4 : forall key, blk key -> forall i, w4 (ew key i).
Proof.
  intros key B i. induction i as [i IH] using (well_founded_induction lt_wf). rewrite ew_eq.
  destruct (i <? 4)%nat eqn:L; [apply key4; auto; lia|].
  destruct (i mod 4 =? 0)%nat.
  - apply xorw4; [apply IH; lia|]. apply xorw4; [|apply rcon4]. apply subrot4, IH. lia.
  - apply xorw4; apply IH; lia.
Qed.

Lemma rcon_spec : forall i, (i < 10)%nat -> nth i rcon 0 = GETU32 0 (Rcon (S i)).
Proof.
  intros i I. cbv [Rcon]. replace (S i - 1)%nat with i by lia.
  assert (A : forallb (fun i => nth i rcon 0 =? GETU32 0 [Nat.iter i xtime 1; 0; 0; 0]) (seq 0 10) = true) by (vm_compute; reflexivity).
  apply Z.eqb_eq. apply (proj1 (forallb_forall _ _) A). apply in_seq. lia.
Qed.

Definition words (key : list Z) (n : nat) : list Z := map (fun i => GETU32 0 (ew key i)) (seq 0 n).
Lemma words_len : forall key n, length (words key n) = n.
Proof. intros. unfold words. now rewrite map_length, seq_length. Qed.
Lemma words_nth : forall key n i, (i < n)%nat -> nth i (words key n) 0 = GETU32 0 (ew key i).
Proof.
  intros key n i I. unfold words. rewrite (nth_indep _ 0 (GETU32 0 (ew key 0))) by (rewrite map_length, seq_length; lia).
  rewrite (map_nth (fun i => GETU32 0 (ew key i))), seq_nth by lia. reflexivity.
Qed.

Lemma rot_word : forall a, w4 a ->
  Z.lxor (Z.lxor (Z.lxor (Z.land (at_ Te4 (o2 (GETU32 0 a))) 4278190080) (Z.land (at_ Te4 (o1 (GETU32 0 a))) 16711680))
         (Z.land (at_ Te4 (o0 (GETU32 0 a))) 65280)) (Z.land (at_ Te4 (o3 (GETU32 0 a))) 255) = GETU32 0 (SubWord (RotWord a)).
Proof.
  intros a (a0 & a1 & a2 & a3 & -> & A0 & A1 & A2 & A3). unfold SubWord, RotWord. cbn [app map]. rewrite !GET_cons. Wo.
  rewrite Te4_3, Te4_2, Te4_1, Te4_0 by assumption. rewrite !W_xor, ?Z.lxor_0_l, ?Z.lxor_0_r. reflexivity.
Qed.

Lemma setup_step_spec : forall key i, blk key -> (i < 10)%nat -> setup_step (words key (4 * i + 4)) i = words key (4 * S i + 4).
Proof.
  intros key i B I. unfold setup_step. rewrite !words_nth by lia.
  replace (4 * S i + 4)%nat with (S (S (S (S (4 * i + 4))))) by lia. unfold words at 1.
  assert (M : words key (S (S (S (S (4 * i + 4))))) = words key (4 * i + 4) ++
    [GETU32 0 (ew key (4 * i + 4)); GETU32 0 (ew key (4 * i + 5)); GETU32 0 (ew key (4 * i + 6)); GETU32 0 (ew key (4 * i + 7))]).
  { unfold words. rewrite !seq_S, !map_app. cbn [map]. rewrite <- !app_assoc. cbn [app Nat.add].
    repeat (f_equal; try lia). all: do 3 f_equal; lia. }
  rewrite M. f_equal. 
  assert (X0 : GETU32 0 (ew key (4 * i + 4)) = Z.lxor (GETU32 0 (ew key (4 * i))) (Z.lxor (GETU32 0 (SubWord (RotWord (ew key (4 * i + 3))))) (nth i rcon 0))).
  { rewrite (ew_eq key (4 * i + 4)). replace (4 * i + 4 <? 4)%nat with false by lia. replace ((4 * i + 4) mod 4 =? 0)%nat with true by lia.
    replace (4 * i + 4 - 4)%nat with (4 * i)%nat by lia. replace (4 * i + 4 - 1)%nat with (4 * i + 3)%nat by lia. replace ((4 * i + 4) / 4)%nat with (S i) by lia.
    rewrite rcon_spec by lia. pose proof (ew_4 key B (4 * i)) as P. pose proof (subrot4 _ (ew_4 key B (4 * i + 3))) as P'.
    destruct (xorw4 _ _ P' (rcon4 (S i))) as [P1 P2]. destruct (xorw4 _ _ P P1) as [_ P3]. rewrite P3, P2. reflexivity. }
  assert (X : forall j, (j < 3)%nat -> GETU32 0 (ew key (4 * i + 5 + j)) = Z.lxor (GETU32 0 (ew key (4 * i + 1 + j))) (GETU32 0 (ew key (4 * i + 4 + j)))).
  { intros j J. rewrite (ew_eq key (4 * i + 5 + j)). replace (4 * i + 5 + j <? 4)%nat with false by lia. replace ((4 * i + 5 + j) mod 4 =? 0)%nat with false by lia.
    replace (4 * i + 5 + j - 4)%nat with (4 * i + 1 + j)%nat by lia. replace (4 * i + 5 + j - 1)%nat with (4 * i + 4 + j)%nat by lia.
    apply xorw4; apply ew_4; auto. }
  pose proof (X 0%nat ltac:(lia)) as X1. pose proof (X 1%nat ltac:(lia)) as X2. pose proof (X 2%nat ltac:(lia)) as X3. clear X.
  replace (4 * i + 5 + 0)%nat with (4 * i + 5)%nat in X1 by lia. replace (4 * i + 1 + 0)%nat with (4 * i + 1)%nat in X1 by lia.
  replace (4 * i + 4 + 0)%nat with (4 * i + 4)%nat in X1 by lia.
  replace (4 * i + 5 + 1)%nat with (4 * i + 6)%nat in X2 by lia. replace (4 * i + 1 + 1)%nat with (4 * i + 2)%nat in X2 by lia.
  replace (4 * i + 4 + 1)%nat with (4 * i + 5)%nat in X2 by lia.
  replace (4 * i + 5 + 2)%nat with (4 * i + 7)%nat in X3 by lia. replace (4 * i + 1 + 2)%nat with (4 * i + 3)%nat in X3 by lia.
  replace (4 * i + 4 + 2)%nat with (4 * i + 6)%nat in X3 by lia.
  rewrite X3, X2, X1, X0. clear X0 X1 X2 X3. rewrite <- (rot_word _ (ew_4 key B (4 * i + 3))). rewrite Nat.add_0_r.
  rewrite !Z.lxor_assoc. reflexivity.
Qed.

Lemma setup_spec : forall key, blk key -> rijndaelKeySetupEnc key = words key 44.
Proof.
  intros key B. unfold rijndaelKeySetupEnc.
  assert (Z0 : [GETU32 0 key; GETU32 4 key; GETU32 8 key; GETU32 12 key] = words key (4 * 0 + 4)).
  { unfold words. cbn [seq map Nat.mul Nat.add].
    pose proof (fun i I => proj2 (key4 key i B I)) as K4.
    assert (Q : forall i, (i < 4)%nat -> GETU32 (4 * i) key = GETU32 0 (ew key i)).
    { intros i I. rewrite ew_eq. replace (i <? 4)%nat with true by lia. apply K4. exact I. }
    rewrite <- (Q 0%nat), <- (Q 1%nat), <- (Q 2%nat), <- (Q 3%nat) by lia. reflexivity. }
  rewrite Z0. clear Z0.
  assert (G : forall n i, (n + i = 10)%nat -> setup_loop n i (words key (4 * i + 4)) = words key 44).
  { induction n as [|n IH]; intros i E; cbn [setup_loop]; [f_equal; lia|]. rewrite setup_step_spec by (auto; lia). apply IH. lia. }
  apply (G 10%nat 0%nat). reflexivity.
Qed.

Lemma roundkey_eq : forall key r, (r <= 10)%nat ->
  RoundKey key r = ew key (4 * r) ++ ew key (4 * r + 1) ++ ew key (4 * r + 2) ++ ew key (4 * r + 3).
Proof. intros key r R. unfold RoundKey. cbn [map concat]. rewrite !expanded_nth by lia. rewrite app_nil_r, Nat.add_0_r. reflexivity. Qed.
Lemma roundkey_blk : forall key r, blk key -> (r <= 10)%nat -> blk (RoundKey key r).
Proof.
  intros key r B R. rewrite roundkey_eq by auto.
  destruct (ew_4 key B (4 * r)) as (a0 & a1 & a2 & a3 & -> & A0 & A1 & A2 & A3). destruct (ew_4 key B (4 * r + 1)) as (b0 & b1 & b2 & b3 & -> & B0 & B1 & B2 & B3).
  destruct (ew_4 key B (4 * r + 2)) as (c0 & c1 & c2 & c3 & -> & C0 & C1 & C2 & C3). destruct (ew_4 key B (4 * r + 3)) as (d0 & d1 & d2 & d3 & -> & D0 & D1 & D2 & D3).
  split; [reflexivity|]. cbn [app]. repeat (constructor; [assumption|]). constructor.
Qed.
Lemma keyed_get : forall a b c d, w4 a -> w4 b -> w4 c -> w4 d ->
  GETU32 0 (a ++ b ++ c ++ d) = GETU32 0 a /\ GETU32 4 (a ++ b ++ c ++ d) = GETU32 0 b /\
  GETU32 8 (a ++ b ++ c ++ d) = GETU32 0 c /\ GETU32 12 (a ++ b ++ c ++ d) = GETU32 0 d.
Proof.
  intros a b c d (a0 & a1 & a2 & a3 & -> & _) (b0 & b1 & b2 & b3 & -> & _) (c0 & c1 & c2 & c3 & -> & _) (d0 & d1 & d2 & d3 & -> & _).
  repeat split.
Qed.
Lemma enc_keyed : forall key r, blk key -> (r <= 10)%nat -> keyed (words key 44) (4 * r) (RoundKey key r).
Proof.
  intros key r B R. rewrite roundkey_eq by auto. unfold keyed. rewrite !words_nth by lia.
  destruct (keyed_get _ _ _ _ (ew_4 key B (4 * r)) (ew_4 key B (4 * r + 1)) (ew_4 key B (4 * r + 2)) (ew_4 key B (4 * r + 3))) as (-> & -> & -> & ->).
  auto.
Qed.

Theorem encrypt_spec : forall key b, blk key -> blk b -> rijndaelEncrypt (rijndaelKeySetupEnc key) b = Cipher key b.
Proof.
  intros key b K B. rewrite setup_spec by auto. unfold rijndaelEncrypt, Cipher.
  rewrite (load_spec _ _ (RoundKey key 0)) by (auto using roundkey_blk; try apply (enc_keyed key 0); auto; try lia; apply roundkey_blk; auto; lia).
  assert (A0 : blk (AddRoundKey (RoundKey key 0) b)) by (apply ark_blk; auto; apply roundkey_blk; auto; lia).
  assert (ST : forall s r, blk s -> (r <= 10)%nat -> enc_round (words key 44) (4 * r) (quad_of s) = quad_of (Round key s r) /\ blk (Round key s r)).
  { intros s r S0 R. split.
    - unfold Round. apply enc_round_spec; auto using roundkey_blk, enc_keyed.
    - unfold Round. apply ark_blk; [apply roundkey_blk; auto|]. apply mixed_blk, shift_blk, sub_blk, S0. }
  cbn [enc_loop Nat.add fold_left].
  destruct (ST _ 1%nat A0 ltac:(lia)) as [E1 A1]. change (4 * 1)%nat with 4%nat in E1. rewrite E1.
  destruct (ST _ 2%nat A1 ltac:(lia)) as [E2 A2]. change (4 * 2)%nat with 8%nat in E2. rewrite E2.
  destruct (ST _ 3%nat A2 ltac:(lia)) as [E3 A3]. change (4 * 3)%nat with 12%nat in E3. rewrite E3.
  destruct (ST _ 4%nat A3 ltac:(lia)) as [E4 A4]. change (4 * 4)%nat with 16%nat in E4. rewrite E4.
  destruct (ST _ 5%nat A4 ltac:(lia)) as [E5 A5]. change (4 * 5)%nat with 20%nat in E5. rewrite E5.
  destruct (ST _ 6%nat A5 ltac:(lia)) as [E6 A6]. change (4 * 6)%nat with 24%nat in E6. rewrite E6.
  destruct (ST _ 7%nat A6 ltac:(lia)) as [E7 A7]. change (4 * 7)%nat with 28%nat in E7. rewrite E7.
  destruct (ST _ 8%nat A7 ltac:(lia)) as [E8 A8]. change (4 * 8)%nat with 32%nat in E8. rewrite E8.
  destruct (ST _ 9%nat A8 ltac:(lia)) as [E9 A9]. change (4 * 9)%nat with 36%nat in E9. rewrite E9.
  apply enc_last_spec; auto. { apply roundkey_blk; auto; lia. } apply (enc_keyed key 10); auto.
Qed.

(** ** the decryption key schedule *)
Definition dec_words (rk : list Z) : list Z :=
  map (fun i => let w := nth (4 * (10 - i / 4) + i mod 4)%nat rk 0 in
                if ((0 <? i / 4) && (i / 4 <? 10))%nat then inv_mix_word w else w) (seq 0 44).

Lemma dec_setup_words : forall rk, length rk = 44%nat -> inv_mix_loop 9 1 (reverse_loop 11 0 40 rk) = dec_words rk.
Proof.
  intros rk L. do 44 (destruct rk as [|? rk]; [discriminate L|]). destruct rk; [clear L|discriminate L].
  cbv -[inv_mix_word]. reflexivity.
Qed.
Lemma dec_words_nth : forall rk i, (i < 44)%nat ->
  nth i (dec_words rk) 0 = let w := nth (4 * (10 - i / 4) + i mod 4)%nat rk 0 in
                           if ((0 <? i / 4) && (i / 4 <? 10))%nat then inv_mix_word w else w.
Proof.
  intros rk i I. unfold dec_words.
  set (f := fun i => let w := nth (4 * (10 - i / 4) + i mod 4)%nat rk 0 in if ((0 <? i / 4) && (i / 4 <? 10))%nat then inv_mix_word w else w).
  rewrite (nth_indep _ 0 (f 0%nat)) by (rewrite map_length, seq_length; lia). rewrite (map_nth f), seq_nth by lia. reflexivity.
Qed.

Lemma inv_mix_word_spec : forall a b c d, is_u8 a -> is_u8 b -> is_u8 c -> is_u8 d ->
  inv_mix_word (W a b c d) =
  W (Z.lxor (Z.lxor (gmul 14 a) (gmul 11 b)) (Z.lxor (gmul 13 c) (gmul 9 d)))
    (Z.lxor (Z.lxor (gmul 14 b) (gmul 11 c)) (Z.lxor (gmul 13 d) (gmul 9 a)))
    (Z.lxor (Z.lxor (gmul 14 c) (gmul 11 d)) (Z.lxor (gmul 13 a) (gmul 9 b)))
    (Z.lxor (Z.lxor (gmul 14 d) (gmul 11 a)) (Z.lxor (gmul 13 b) (gmul 9 c))).
Proof.
  intros a b c d A B C D. unfold inv_mix_word. Wo. rewrite !Te4_b by assumption.
  rewrite Td0_spec, Td1_spec, Td2_spec, Td3_spec by (apply sbox_octet; assumption). rewrite !inv_sbox_sbox by assumption.
  rewrite !W_xor. f_equal; xorac.
Qed.

Lemma inv_mix_blk : forall s, blk s ->
  GETU32 0 (InvMixColumns s) = inv_mix_word (GETU32 0 s) /\ GETU32 4 (InvMixColumns s) = inv_mix_word (GETU32 4 s) /\
  GETU32 8 (InvMixColumns s) = inv_mix_word (GETU32 8 s) /\ GETU32 12 (InvMixColumns s) = inv_mix_word (GETU32 12 s).
Proof.
  intros s B. dblk s B. rewrite !GET_cons, !GET4, !GET8, !GET12. rewrite !inv_mix_word_spec by assumption. repeat split.
Qed.

(** the round key of decryption round [r] *)
Definition DecKey (key : list Z) (r : nat) : list Z :=
  if ((0 <? r) && (r <? 10))%nat then InvMixColumns (RoundKey key (10 - r)) else RoundKey key (10 - r).
Lemma dec_key_0 : forall key, DecKey key 0 = RoundKey key 10.
Proof. intros key. unfold DecKey. cbn [Nat.ltb Nat.leb andb Nat.sub]. reflexivity. Qed.
Lemma dec_key_10 : forall key, DecKey key 10 = RoundKey key 0.
Proof. intros key. unfold DecKey. cbn [Nat.ltb Nat.leb andb Nat.sub]. reflexivity. Qed.
Lemma dec_key_blk : forall key r, blk key -> (r <= 10)%nat -> blk (DecKey key r).
Proof. intros key r B R. unfold DecKey. destruct (_ && _); [apply mixed_blk|]; apply roundkey_blk; auto; lia. Qed.

Lemma dec_keyed : forall key r, blk key -> (r <= 10)%nat -> keyed (rijndaelKeySetupDec key) (4 * r) (DecKey key r).
Proof.
  intros key r B R. unfold rijndaelKeySetupDec. rewrite setup_spec by auto. rewrite dec_setup_words by apply words_len.
  destruct (enc_keyed key (10 - r) B ltac:(lia)) as (E0 & E1 & E2 & E3).
  destruct (inv_mix_blk (RoundKey key (10 - r)) (roundkey_blk key (10 - r) B ltac:(lia))) as (M0 & M1 & M2 & M3).
  unfold keyed. rewrite !dec_words_nth by lia. cbv zeta.
  assert (QD : forall j, (j < 4)%nat -> ((4 * r + j) / 4 = r /\ (4 * r + j) mod 4 = j)%nat).
  { clear. intros j J. replace (4 * r)%nat with (r * 4)%nat by lia. rewrite Nat.add_comm, Nat.div_add, Nat.mod_add, Nat.div_small, Nat.mod_small by lia. lia. }
  destruct (QD 0%nat ltac:(lia)) as [Q1 Q2]. rewrite Nat.add_0_r in Q1, Q2. rewrite Q1, Q2. clear Q1 Q2.
  destruct (QD 1%nat ltac:(lia)) as [Q1 Q2]. rewrite Q1, Q2. clear Q1 Q2. destruct (QD 2%nat ltac:(lia)) as [Q1 Q2]. rewrite Q1, Q2. clear Q1 Q2.
  destruct (QD 3%nat ltac:(lia)) as [Q1 Q2]. rewrite Q1, Q2. clear Q1 Q2. rewrite Nat.add_0_r.
  rewrite E0, E1, E2, E3. unfold DecKey. destruct ((0 <? r) && (r <? 10))%nat; [|repeat split].
  rewrite M0, M1, M2, M3. repeat split.
Qed.

Lemma xor8 : forall a b c d a' b' c' d',
  Z.lxor (Z.lxor (Z.lxor a b) (Z.lxor c d)) (Z.lxor (Z.lxor a' b') (Z.lxor c' d')) =
  Z.lxor (Z.lxor (Z.lxor a a') (Z.lxor b b')) (Z.lxor (Z.lxor c c') (Z.lxor d d')).
Proof. intros. xorac. Qed.
Lemma inv_mix_ark : forall k s, blk k -> blk s -> AddRoundKey (InvMixColumns k) (InvMixColumns s) = InvMixColumns (AddRoundKey k s).
Proof.
  intros k s K B. dblk k K. dblk s B. unfold AddRoundKey, InvMixColumns, mixed, state_of, cell. cbn.
  rewrite !gmul_xor by assumption. do 15 (apply f_equal2; [apply xor8|]). apply f_equal2; [apply xor8|reflexivity].
Qed.

Theorem decrypt_spec : forall key b, blk key -> blk b -> rijndaelDecrypt (rijndaelKeySetupDec key) b = InvCipher key b.
Proof.
  intros key b K B. unfold rijndaelDecrypt, InvCipher.
  pose proof (dec_keyed key 0 K ltac:(lia)) as D0. rewrite dec_key_0 in D0.
  rewrite (load_spec _ _ (RoundKey key 10)) by (auto; apply roundkey_blk; auto; lia).
  assert (A0 : blk (AddRoundKey (RoundKey key 10) b)) by (apply ark_blk; auto; apply roundkey_blk; auto; lia).
  assert (ST : forall s r, blk s -> (0 < r < 10)%nat ->
    dec_round (rijndaelKeySetupDec key) (4 * r) (quad_of s) = quad_of (InvRound key s (10 - r)) /\ blk (InvRound key s (10 - r))).
  { intros s r S0 R. pose proof (inv_sub_blk _ (inv_shift_blk _ S0)) as S1. pose proof (roundkey_blk key (10 - r) K ltac:(lia)) as RB. split.
    - unfold InvRound. rewrite <- inv_mix_ark by auto. rewrite (dec_round_spec _ _ _ (DecKey key r)); auto using dec_keyed, dec_key_blk.
      + unfold DecKey. replace ((0 <? r) && (r <? 10))%nat with true by lia. reflexivity.
      + apply dec_key_blk; auto; lia.
      + apply dec_keyed; auto; lia.
    - unfold InvRound. apply mixed_blk, ark_blk; auto. }
  cbn [dec_loop Nat.add fold_left].
  destruct (ST _ 1%nat A0 ltac:(lia)) as [E1 A1]. change (4 * 1)%nat with 4%nat in E1. change (10 - 1)%nat with 9%nat in E1, A1. rewrite E1. clear E1.
  destruct (ST _ 2%nat A1 ltac:(lia)) as [E2 A2]. change (4 * 2)%nat with 8%nat in E2. change (10 - 2)%nat with 8%nat in E2, A2. rewrite E2. clear E2.
  destruct (ST _ 3%nat A2 ltac:(lia)) as [E3 A3]. change (4 * 3)%nat with 12%nat in E3. change (10 - 3)%nat with 7%nat in E3, A3. rewrite E3. clear E3.
  destruct (ST _ 4%nat A3 ltac:(lia)) as [E4 A4]. change (4 * 4)%nat with 16%nat in E4. change (10 - 4)%nat with 6%nat in E4, A4. rewrite E4. clear E4.
  destruct (ST _ 5%nat A4 ltac:(lia)) as [E5 A5]. change (4 * 5)%nat with 20%nat in E5. change (10 - 5)%nat with 5%nat in E5, A5. rewrite E5. clear E5.
  destruct (ST _ 6%nat A5 ltac:(lia)) as [E6 A6]. change (4 * 6)%nat with 24%nat in E6. change (10 - 6)%nat with 4%nat in E6, A6. rewrite E6. clear E6.
  destruct (ST _ 7%nat A6 ltac:(lia)) as [E7 A7]. change (4 * 7)%nat with 28%nat in E7. change (10 - 7)%nat with 3%nat in E7, A7. rewrite E7. clear E7.
  destruct (ST _ 8%nat A7 ltac:(lia)) as [E8 A8]. change (4 * 8)%nat with 32%nat in E8. change (10 - 8)%nat with 2%nat in E8, A8. rewrite E8. clear E8.
  destruct (ST _ 9%nat A8 ltac:(lia)) as [E9 A9]. change (4 * 9)%nat with 36%nat in E9. change (10 - 9)%nat with 1%nat in E9, A9. rewrite E9. clear E9.
  apply dec_last_spec; [exact A9|apply roundkey_blk; auto; lia|]. pose proof (dec_keyed key 10 K ltac:(lia)) as D10. rewrite dec_key_10 in D10. change (4 * 10)%nat with 40%nat in D10. exact D10.
Qed.

(** ** the standard's own inverse *)
Lemma gmul_gmul : forall x, is_u8 x ->
  Z.lxor (Z.lxor (gmul 14 (gmul 2 x)) (gmul 11 x)) (Z.lxor (gmul 13 x) (gmul 9 (gmul 3 x))) = x /\
  Z.lxor (Z.lxor (gmul 14 (gmul 3 x)) (gmul 11 (gmul 2 x))) (Z.lxor (gmul 13 x) (gmul 9 x)) = 0 /\
  Z.lxor (Z.lxor (gmul 14 x) (gmul 11 (gmul 3 x))) (Z.lxor (gmul 13 (gmul 2 x)) (gmul 9 x)) = 0 /\
  Z.lxor (Z.lxor (gmul 14 x) (gmul 11 x)) (Z.lxor (gmul 13 (gmul 3 x)) (gmul 9 (gmul 2 x))) = 0.
Proof.
  intros x X.
  assert (E : forall x, is_u8 x ->
    ((Z.lxor (Z.lxor (gmul 14 (gmul 2 x)) (gmul 11 x)) (Z.lxor (gmul 13 x) (gmul 9 (gmul 3 x))) =? x) &&
     (Z.lxor (Z.lxor (gmul 14 (gmul 3 x)) (gmul 11 (gmul 2 x))) (Z.lxor (gmul 13 x) (gmul 9 x)) =? 0) &&
     (Z.lxor (Z.lxor (gmul 14 x) (gmul 11 (gmul 3 x))) (Z.lxor (gmul 13 (gmul 2 x)) (gmul 9 x)) =? 0) &&
     (Z.lxor (Z.lxor (gmul 14 x) (gmul 11 x)) (Z.lxor (gmul 13 (gmul 3 x)) (gmul 9 (gmul 2 x))) =? 0)) = true).
  { apply for_octets. vm_compute. reflexivity. }
  specialize (E x X). rewrite !andb_true_iff, !Z.eqb_eq in E. tauto.
Qed.

(** one octet of InvMixColumns (MixColumns s): a is the octet itself, b, c, d the others of its column *)
Lemma unmix : forall a b c d, is_u8 a -> is_u8 b -> is_u8 c -> is_u8 d ->
  Z.lxor
    (Z.lxor (gmul 14 (Z.lxor (Z.lxor (gmul 2 a) (gmul 3 b)) (Z.lxor (gmul 1 c) (gmul 1 d))))
            (gmul 11 (Z.lxor (Z.lxor (gmul 2 b) (gmul 3 c)) (Z.lxor (gmul 1 d) (gmul 1 a)))))
    (Z.lxor (gmul 13 (Z.lxor (Z.lxor (gmul 2 c) (gmul 3 d)) (Z.lxor (gmul 1 a) (gmul 1 b))))
            (gmul 9 (Z.lxor (Z.lxor (gmul 2 d) (gmul 3 a)) (Z.lxor (gmul 1 b) (gmul 1 c))))) = a.
Proof.
  intros a b c d A B C D. rewrite !gmul_1 by assumption.
  rewrite !gmul_xor by (repeat (first [assumption | apply gmul_octet; assumption | apply lxor_octet])).
  destruct (gmul_gmul a A) as (PA & _ & _ & _). destruct (gmul_gmul b B) as (_ & PB & _ & _).
  destruct (gmul_gmul c C) as (_ & _ & PC & _). destruct (gmul_gmul d D) as (_ & _ & _ & PD).
  rewrite <- PA at 5. rewrite <- (Z.lxor_0_r (Z.lxor (Z.lxor (gmul 14 (gmul 2 a)) (gmul 11 a)) (Z.lxor (gmul 13 a) (gmul 9 (gmul 3 a))))).
  rewrite <- PB. rewrite <- (Z.lxor_0_r (Z.lxor (Z.lxor (gmul 14 (gmul 3 b)) (gmul 11 (gmul 2 b))) (Z.lxor (gmul 13 b) (gmul 9 b)))).
  rewrite <- PC. rewrite <- (Z.lxor_0_r (Z.lxor (Z.lxor (gmul 14 c) (gmul 11 (gmul 3 c))) (Z.lxor (gmul 13 (gmul 2 c)) (gmul 9 c)))).
  rewrite <- PD. clear.
  apply Z.bits_inj'. intros i _. rewrite !Z.lxor_spec. 
  repeat match goal with |- context [Z.testbit ?x i] => generalize (Z.testbit x i); intro end. btauto.
Qed.
Lemma inv_mix_mix : forall s, blk s -> InvMixColumns (MixColumns s) = s.
Proof.
  intros s B. dblk s B. unfold InvMixColumns, MixColumns, mixed, state_of, cell. cbn. rewrite !unmix by assumption. reflexivity.
Qed.
Lemma inv_shift_shift : forall s, blk s -> InvShiftRows (ShiftRows s) = s.
Proof. intros s B. dblk s B. reflexivity. Qed.
Lemma map_inv : forall (f g : Z -> Z) s, (forall x, is_u8 x -> g (f x) = x) -> blk s -> map g (map f s) = s.
Proof. intros f g s A [_ B]. rewrite map_map. induction B as [|x l X B IH]; [reflexivity|]. cbn [map]. rewrite A, IH by auto. reflexivity. Qed.
Lemma inv_sub_sub : forall s, blk s -> InvSubBytes (SubBytes s) = s.
Proof. intros s. apply map_inv, inv_sbox_sbox. Qed.
Lemma ark_ark : forall k s, blk k -> blk s -> AddRoundKey k (AddRoundKey k s) = s.
Proof.
  intros k s K B. dblk k K. dblk s B. unfold AddRoundKey. cbn [combine map fst snd]. rewrite !Z.lxor_assoc, !Z.lxor_nilpotent, !Z.lxor_0_r. reflexivity.
Qed.

Lemma round_blk : forall key s r, blk key -> blk s -> (r <= 10)%nat -> blk (Round key s r).
Proof. intros key s r K B R. unfold Round. apply ark_blk; [apply roundkey_blk; auto|]. apply mixed_blk, shift_blk, sub_blk, B. Qed.
Lemma inv_round_round : forall key s r, blk key -> blk s -> (r <= 10)%nat ->
  InvRound key (ShiftRows (SubBytes (Round key s r))) r = ShiftRows (SubBytes s).
Proof.
  intros key s r K B R. unfold InvRound. pose proof (round_blk key s r K B R) as RB.
  rewrite inv_shift_shift by (apply sub_blk; auto). rewrite inv_sub_sub by auto.
  pose proof (shift_blk _ (sub_blk _ B)) as SB'. unfold Round. rewrite ark_ark by (try apply roundkey_blk; try apply mixed_blk; auto).
  apply inv_mix_mix; auto.
Qed.

Definition up : list nat := [1; 2; 3; 4; 5; 6; 7; 8; 9]%nat.
Lemma cipher_eq : forall key b, Cipher key b = AddRoundKey (RoundKey key 10) (ShiftRows (SubBytes (fold_left (Round key) up (AddRoundKey (RoundKey key 0) b)))).
Proof. intros. reflexivity. Qed.
Lemma inv_cipher_eq : forall key b, InvCipher key b = AddRoundKey (RoundKey key 0) (InvSubBytes (InvShiftRows (fold_left (InvRound key) (rev up) (AddRoundKey (RoundKey key 10) b)))).
Proof.
  intros. assert (E : rev up = [9; 8; 7; 6; 5; 4; 3; 2; 1]%nat) by reflexivity. rewrite E. reflexivity.
Qed.
Lemma up_10 : Forall (fun r => (r <= 10)%nat) up.
Proof. unfold up. repeat (constructor; [lia|]). constructor. Qed.

Lemma fold_cons : forall (f : list Z -> nat -> list Z) r rs s, fold_left f (r :: rs) s = fold_left f rs (f s r).
Proof. reflexivity. Qed.
Lemma fold_nil : forall (f : list Z -> nat -> list Z) s, fold_left f [] s = s.
Proof. reflexivity. Qed.
Lemma rev_cons : forall (r : nat) rs, rev (r :: rs) = rev rs ++ [r].
Proof. reflexivity. Qed.
Lemma rounds_back : forall key, blk key -> forall rs s, blk s -> Forall (fun r => (r <= 10)%nat) rs ->
  blk (fold_left (Round key) rs s) /\ fold_left (InvRound key) (rev rs) (ShiftRows (SubBytes (fold_left (Round key) rs s))) = ShiftRows (SubBytes s).
Proof.
  intros key K rs. induction rs as [|r rs IH]; intros s S0 F; [split; [exact S0|reflexivity]|]. inversion F as [|? ? F1 F2]; subst.
  pose proof (round_blk key s r K S0 F1) as RB. destruct (IH _ RB F2) as [I1 I2]. rewrite fold_cons. split; [exact I1|].
  rewrite rev_cons, fold_left_app, I2, fold_cons, fold_nil. apply inv_round_round; auto.
Qed.

Theorem inv_cipher_cipher : forall key b, blk key -> blk b -> InvCipher key (Cipher key b) = b.
Proof.
  intros key b K B. rewrite inv_cipher_eq, cipher_eq.
  pose proof (roundkey_blk key 0 K ltac:(lia)) as K0. pose proof (roundkey_blk key 10 K ltac:(lia)) as K10.
  pose proof (ark_blk _ _ K0 B) as AB. destruct (rounds_back key K up _ AB up_10) as [G1 G2].
  rewrite (ark_ark _ _ K10 (shift_blk _ (sub_blk _ G1))). rewrite G2.
  rewrite (inv_shift_shift _ (sub_blk _ AB)). rewrite (inv_sub_sub _ AB). apply (ark_ark _ _ K0 B).
Qed.

Lemma cipher_blk : forall key b, blk key -> blk b -> blk (Cipher key b).
Proof.
  intros key b K B. unfold Cipher. apply ark_blk; [apply roundkey_blk; auto; lia|]. apply shift_blk, sub_blk.
  assert (G : forall rs s, blk s -> Forall (fun r => (r <= 10)%nat) rs -> blk (fold_left (Round key) rs s)).
  { induction rs as [|r rs IH]; intros s S0 F; [auto|]. inversion F; subst. rewrite fold_cons. apply IH; auto. apply round_blk; auto. }
  apply G; [|repeat constructor]. apply ark_blk; auto. apply roundkey_blk; auto; lia.
Qed.
Lemma inv_cipher_blk : forall key b, blk key -> blk b -> blk (InvCipher key b).
Proof.
  intros key b K B. unfold InvCipher. apply ark_blk; [apply roundkey_blk; auto; lia|]. apply inv_sub_blk, inv_shift_blk.
  assert (G : forall rs s, blk s -> Forall (fun r => (r <= 10)%nat) rs -> blk (fold_left (InvRound key) rs s)).
  { induction rs as [|r rs IH]; intros s S0 F; [auto|]. inversion F; subst. rewrite fold_cons. apply IH; auto.
    unfold InvRound. apply mixed_blk, ark_blk; [apply roundkey_blk; auto|]. apply inv_sub_blk, inv_shift_blk, S0. }
  apply G; [|repeat constructor]. apply ark_blk; auto. apply roundkey_blk; auto; lia.
Qed.

Lemma sixteen_blk : forall l, sixteen l = true <-> blk l.
Proof.
  intros l. unfold sixteen, blk, octets. rewrite andb_true_iff, Nat.eqb_eq, forallb_forall, Forall_forall.
  split; intros [L A]; split; auto; intros x X; specialize (A x X); unfold is_u8 in *; lia.
Qed.
