(** Proofs about [Arith_Model]. *)
From Coq Require Import ZArith List Bool Lia ZifyBool ZifyNat.
From Verif Require Import Base BaseLemmas Arith_Model.
Import ListNotations.
Open Scope Z_scope.
Ltac Zify.zify_post_hook ::= Z.div_mod_to_equations.

Lemma prod_bound : forall a b, 0 <= a < M32 -> 0 <= b < M32 ->
  0 <= a * b <= 18446744065119617025.
Proof. intros. nia. Qed.

Lemma mult_digits : forall x0 x1 y0 y1,
  0 <= x0 < M32 -> 0 <= x1 < M32 -> 0 <= y0 < M32 -> 0 <= y1 < M32 ->
  let w := mult_row x0 x1 y1 1 (mult_row x0 x1 y0 0 [0;0;0;0]) in
  u64 (nth 1 w 0 + u64 (nth 2 w 0 * M32))
  = ((x0*y0 + (x1*y0 + x0*y1) * M32 + x1*y1*(M32*M32)) / M32) mod M64.
Proof.
  intros x0 x1 y0 y1 Hx0 Hx1 Hy0 Hy1.
  pose proof (prod_bound x0 y0 Hx0 Hy0) as H00.
  pose proof (prod_bound x1 y0 Hx1 Hy0) as H10.
  pose proof (prod_bound x0 y1 Hx0 Hy1) as H01.
  pose proof (prod_bound x1 y1 Hx1 Hy1) as H11.
  unfold mult_row, mult_step. cbn [upd nth Nat.add].
  set (p00 := x0*y0) in *. set (p10 := x1*y0) in *. set (p01 := x0*y1) in *. set (p11 := x1*y1) in *.
  clearbody p00 p10 p01 p11. clear Hx0 Hx1 Hy0 Hy1 x0 x1 y0 y1.
  unfold u64.
  rewrite !Z.add_0_l, !Z.add_0_r, !Zmod_mod. cbv zeta.
  rewrite !(Z.mod_small p00), !(Z.mod_small p10), !(Z.mod_small p01), !(Z.mod_small p11) by lia.
  set (k0 := p00 / M32) in *. set (r0 := p00 mod M32) in *.
  assert (E0 : p00 = k0 * M32 + r0 /\ 0 <= r0 < M32 /\ 0 <= k0 < M32) by (subst k0 r0; lia).
  clearbody k0 r0. destruct E0 as (E0 & ? & ?).
  rewrite !(Z.mod_small (k0 + p10)) by lia.
  set (k1 := (k0 + p10) / M32) in *. set (r1 := (k0 + p10) mod M32) in *.
  assert (E1 : k0 + p10 = k1 * M32 + r1 /\ 0 <= r1 < M32 /\ 0 <= k1 < M32) by (subst k1 r1; lia).
  clearbody k1 r1. destruct E1 as (E1 & ? & ?).
  rewrite !(Z.mod_small (p01 + r1)) by lia.
  set (k2 := (p01 + r1) / M32) in *. set (r2 := (p01 + r1) mod M32) in *.
  assert (E2 : p01 + r1 = k2 * M32 + r2 /\ 0 <= r2 < M32 /\ 0 <= k2 < M32) by (subst k2 r2; lia).
  clearbody k2 r2. destruct E2 as (E2 & ? & ?).
  rewrite !(Z.mod_small (k2 + p11 + k1)) by lia.
  set (k3 := (k2 + p11 + k1) / M32) in *. set (r3 := (k2 + p11 + k1) mod M32) in *.
  assert (E3 : k2 + p11 + k1 = k3 * M32 + r3 /\ 0 <= r3 < M32) by (subst k3 r3; lia).
  clearbody k3 r3. destruct E3 as (E3 & ?).
  rewrite (Z.mod_small (r3 * M32)) by lia. rewrite (Z.mod_small (r2 + r3 * M32)) by lia.
  replace (p00 + (p10 + p01) * M32 + p11 * (M32 * M32))
    with (r0 + (r2 + r3 * M32 + k3 * M64) * M32) by lia.
  rewrite Z.div_add by lia. rewrite (Z.div_small r0) by lia.
  rewrite Z.add_0_l, Z.mod_add by lia. symmetry. apply Z.mod_small. lia.
Qed.

Lemma Num64Mult_exact : forall x y, is_u64 x -> is_u64 y ->
  OWPNum64Mult x y = (x * y / M32) mod M64.
Proof.
  intros x y Hx Hy. unfold OWPNum64Mult, mask32. red in Hx, Hy.
  rewrite (Z.mod_small (x / M32)), (Z.mod_small (y / M32)) by lia.
  rewrite mult_digits by lia.
  f_equal. f_equal.
  assert (Ex : x = (x / M32) * M32 + x mod M32) by lia.
  assert (Ey : y = (y / M32) * M32 + y mod M32) by lia.
  set (x1 := x / M32) in *. set (x0 := x mod M32) in *.
  set (y1 := y / M32) in *. set (y0 := y mod M32) in *. clearbody x1 x0 y1 y0.
  subst x y. ring.
Qed.

(** ** conversions *)

Lemma carry_loop_id : forall fuel un s sb w, sb < un -> carry_loop fuel un s sb w = (s, sb).
Proof.
  destruct fuel; intros; cbn [carry_loop]; auto.
  destruct (Z.leb_spec un sb); auto; lia.
Qed.

Lemma carry_loop_gen : forall fuel un s sb w, 0 < un -> 0 <= sb ->
  sb / un < Z.of_nat fuel ->
  (forall a b, w (w a + b) = w (a + b)) -> w s = s ->
  carry_loop fuel un s sb w = (w (s + sb / un), sb mod un).
Proof.
  induction fuel; intros un s sb w Hu Hs Hf Hw Hws.
  - exfalso. pose proof (Z.div_pos sb un Hs Hu). lia.
  - cbn [carry_loop]. destruct (Z.leb_spec un sb).
    + assert (E : (sb - un) / un = sb / un - 1).
      { replace (sb - un) with (sb + (-1) * un) by ring. rewrite Z.div_add by lia. lia. }
      rewrite IHfuel; try lia; auto.
      * rewrite E, Hw. f_equal; [f_equal; lia|].
        replace (sb - un) with (sb + (-1) * un) by ring. now rewrite Z.mod_add by lia.
      * pose proof (Hw (s+1) 0). rewrite !Z.add_0_r in *. auto.
    + rewrite Z.div_small, Z.mod_small by lia. now rewrite Z.add_0_r, Hws.
Qed.

Lemma lor_add : forall a b, 0 <= a -> 0 <= b < M32 -> Z.lor (a * M32) b = a * M32 + b.
Proof.
  intros a b Ha Hb. change M32 with (2^32). symmetry.
  replace (a * 2^32) with (Z.shiftl a 32) by (rewrite Z.shiftl_mul_pow2; lia).

  rewrite <- Z.lxor_lor.
  - apply Z.add_nocarry_lxor. apply Z.bits_inj'. intros n Hn. rewrite Z.land_spec, Z.bits_0.
    destruct (Z.lt_ge_cases n 32).
    + rewrite Z.shiftl_spec_low by lia. auto.
    + rewrite <- (Z.mod_small b (2^32)) by lia.
      rewrite Z.mod_pow2_bits_high by lia. apply andb_false_r.
  - apply Z.bits_inj'. intros n Hn. rewrite Z.land_spec, Z.bits_0.
    destruct (Z.lt_ge_cases n 32).
    + rewrite Z.shiftl_spec_low by lia. auto.
    + rewrite <- (Z.mod_small b (2^32)) by lia.
      rewrite Z.mod_pow2_bits_high by lia. apply andb_false_r.
Qed.

Lemma Num64ToTimespec_eq : forall x, is_u64 x ->
  OWPNum64ToTimespec x = (x / M32, (x mod M32) * BILLION / M32).
Proof.
  intros x Hx. red in Hx. unfold OWPNum64ToTimespec, mask32, u64, BILLION.
  rewrite carry_loop_id by lia. f_equal; lia.
Qed.

Lemma Num64ToTimeval_eq : forall x, is_u64 x ->
  OWPNum64ToTimeval x = (x / M32, (x mod M32) * MILLION / M32).
Proof.
  intros x Hx. red in Hx. unfold OWPNum64ToTimeval, mask32, u64, MILLION.
  rewrite carry_loop_id by lia. f_equal; lia.
Qed.

Lemma TimespecToNum64_eq : forall s n, is_u32 s -> 0 <= n < BILLION ->
  OWPTimespecToNum64 (s, n) = s * M32 + (n * M32) / BILLION.
Proof.
  intros s n Hs Hn. red in Hs. unfold OWPTimespecToNum64, u32, fst, snd.
  unfold BILLION in *.
  rewrite (Z.mod_small s), (Z.mod_small n) by lia.
  rewrite carry_loop_id by lia. unfold mask32, u64.
  rewrite (Z.mod_small s), (Z.mod_small (s * M32)), (Z.mod_small (n * M32)) by lia.
  rewrite Z.mod_small by lia.
  apply lor_add; lia.
Qed.

Lemma TimevalToNum64_eq : forall s n, is_u32 s -> 0 <= n < MILLION ->
  OWPTimevalToNum64 (s, n) = s * M32 + (n * M32) / MILLION.
Proof.
  intros s n Hs Hn. red in Hs. unfold OWPTimevalToNum64, u32, fst, snd.
  unfold MILLION in *.
  rewrite (Z.mod_small s), (Z.mod_small n) by lia.
  rewrite carry_loop_id by lia. unfold mask32, u64.
  rewrite (Z.mod_small s), (Z.mod_small (s * M32)), (Z.mod_small (n * M32)) by lia.
  rewrite Z.mod_small by lia.
  apply lor_add; lia.
Qed.

(** non-normalised sub-second counts are carried into the seconds (mod 2^32). *)
Lemma TimespecToNum64_carry : forall s n, is_u32 s -> is_u32 n ->
  OWPTimespecToNum64 (s, n)
  = ((s + n / BILLION) mod M32) * M32 + ((n mod BILLION) * M32) / BILLION.
Proof.
  intros s n Hs Hn. red in Hs, Hn. unfold OWPTimespecToNum64, fst, snd.
  replace (u32 s) with s by (unfold u32; rewrite Z.mod_small; lia).
  replace (u32 n) with n by (unfold u32; rewrite Z.mod_small; lia).
  assert (Hw: forall a b : Z, u32 (u32 a + b) = u32 (a + b))
    by (intros; unfold u32; apply Zplus_mod_idemp_l).
  rewrite carry_loop_gen; auto; try (unfold BILLION; lia); [|unfold u32; rewrite Z.mod_small; lia].
  unfold u32, mask32, u64, BILLION. rewrite Zmod_mod.
  set (s' := (s + n / 1000000000) mod M32).
  assert (0 <= s' < M32) by (subst s'; lia). clearbody s'.
  set (n' := n mod 1000000000). assert (0 <= n' < 1000000000) by (subst n'; lia). clearbody n'.
  rewrite (Z.mod_small (s' * M32)), (Z.mod_small (n' * M32)) by lia.
  rewrite Z.mod_small by lia. apply lor_add; lia.
Qed.

Lemma UsecToNum64_eq : forall u, is_u32 u -> OWPUsecToNum64 u = u * M32 / MILLION.
Proof.
  intros u Hu. red in Hu. unfold OWPUsecToNum64, u64, u32.
  rewrite (Z.mod_small u), (Z.mod_small (u * M32)) by lia. auto.
Qed.

Lemma ULongToNum64_eq : forall a, is_u32 a -> OWPULongToNum64 a = a * M32.
Proof.
  intros a Ha. red in Ha. unfold OWPULongToNum64, u64, u32.
  rewrite (Z.mod_small a), (Z.mod_small (a * M32)) by lia. auto.
Qed.
