(** Lemmas on rounding to single precision; as in Double_Proofs. *)
From Coq Require Import ZArith Bool Lia ZifyBool.
From Verif Require Import Double Double_Proofs Single.
Open Scope Z_scope.

Lemma exp_range32 : forall n d, 0 < n -> 0 < d -> let e := b32_exp n d in 2^23 * sd d e <= sn n e < 2^24 * sd d e.
Proof.
  intros n d Hn Hd. unfold b32_exp. set (e := Z.log2 n - Z.log2 d - 23).
  assert (A: 2^22 * sd d e < sn n e < 2^24 * sd d e).
  { pose proof (Z.log2_spec n Hn) as [N1 N2]. pose proof (Z.log2_spec d Hd) as [D1 D2].
    pose proof (Z.log2_nonneg n). pose proof (Z.log2_nonneg d).
    set (a := Z.log2 n) in *. set (b := Z.log2 d) in *. rewrite Z.pow_succ_r in N2, D2 by lia.
    unfold sn, sd. destruct (Z.leb_spec 0 e).
    - assert (E: 2^a = 2^b * 2^e * 2^23). { rewrite <- !Z.pow_add_r by lia. f_equal. unfold e. lia. }
      pose proof (pow2_pos e ltac:(lia)). pose proof (pow2_pos b ltac:(lia)). change (2^24) with (2 * 2^23). change (2^23) with (2 * 2^22) in *. nia.
    - assert (E: 2^a * 2^(-e) = 2^b * 2^23). { rewrite <- !Z.pow_add_r by lia. f_equal. unfold e. lia. }
      pose proof (pow2_pos (-e) ltac:(lia)). pose proof (pow2_pos b ltac:(lia)). change (2^24) with (2 * 2^23). change (2^23) with (2 * 2^22) in *. nia. }
  assert (Half: sn n (e - 1) * sd d e = 2 * sn n e * sd d (e - 1)).
  { unfold sn, sd. destruct (Z.leb_spec 0 (e - 1)), (Z.leb_spec 0 e); try lia.
    - replace (2^e) with (2 * 2^(e-1)); [ring|]. rewrite <- Z.pow_succ_r by lia. f_equal. lia.
    - assert (e = 0) by lia. replace e with 0 by lia. change (-(0 - 1)) with 1. ring.
    - replace (-(e-1)) with (Z.succ (-e)) by lia. rewrite Z.pow_succ_r by lia. ring. }
  pose proof (sd_pos d e Hd). pose proof (sd_pos d (e - 1) Hd).
  assert (C: (if 0 <=? e then n <? d * 2^e * 2^23 else n * 2^(-e) <? d * 2^23) = (sn n e <? 2^23 * sd d e)).
  { unfold sn, sd. destruct (0 <=? e); rewrite Z.mul_comm with (n := 2^23); reflexivity. }
  rewrite C. destruct (Z.ltb_spec (sn n e) (2^23 * sd d e)); [|split; [lia|tauto]].
  set (x := sn n (e-1)) in *. set (y := sd d (e-1)) in *. set (u := sn n e) in *. set (v := sd d e) in *. clearbody x y u v. clear C. change (2^24) with (2 * 2^23) in *. change (2^23) with (2*2^22) in *. nia.
Qed.

Lemma b32_den : forall n d, 0 < snd (b32 n d).
Proof.
  intros n d. unfold b32. destruct (n =? 0); [cbn; lia|]. destruct (Z.leb_spec 0 (b32_exp n d)); cbn [snd]; [lia|]. apply pow2_pos. lia.
Qed.

(** value relation: fst (b32 n d) / snd (b32 n d) = rne (sn/sd) * 2^e *)
Lemma b32_val : forall n d, 0 < n -> 0 < d -> let e := b32_exp n d in
  fst (b32 n d) * (if 0 <=? e then 1 else 2^(-e)) = rne (sn n e) (sd d e) * (if 0 <=? e then 2^e else 1) * snd (b32 n d).
Proof.
  intros n d Hn Hd e. unfold b32. destruct (Z.eqb_spec n 0); [lia|]. fold e. unfold sn, sd.
  destruct (0 <=? e); cbn [fst snd]; ring.
Qed.

(** relative error at most 2^-24 *)
Lemma b32_err : forall n d, 0 <= n -> 0 < d -> let (p, q) := b32 n d in - (n * q) <= 2^24 * (p * d - n * q) <= n * q.
Proof.
  intros n d Hn Hd. destruct (Z.eq_dec n 0) as [->|]; [cbn; lia|].
  pose proof (exp_range32 n d ltac:(lia) Hd) as R. unfold b32. destruct (Z.eqb_spec n 0); [lia|].
  cbv zeta in R. set (e := b32_exp n d) in *. clearbody e. unfold sn, sd in R.
  destruct (Z.leb_spec 0 e).
  - pose proof (pow2_pos e ltac:(lia)). pose proof (rne_err n (d * 2^e) ltac:(nia)) as Er.
    set (m := rne n (d * 2^e)) in *. clearbody m. set (w := 2^e) in *. clearbody w. change (2^24) with (2 * 2^23) in *. nia.
  - pose proof (pow2_pos (-e) ltac:(lia)). pose proof (rne_err (n * 2^(-e)) d Hd) as Er.
    set (m := rne _ d) in *. clearbody m. set (w := 2^(-e)) in *. clearbody w. change (2^24) with (2 * 2^23) in *. nia.
Qed.

Lemma b32_nonneg : forall n d, 0 <= n -> 0 < d -> 0 <= fst (b32 n d).
Proof.
  intros n d Hn Hd. pose proof (b32_err n d Hn Hd) as E. pose proof (b32_den n d) as D. destruct (b32 n d) as [p q]. cbn [fst snd] in *.
  destruct (Z.le_gt_cases 0 p); auto. exfalso. change (2^24) with 16777216 in E. nia.
Qed.


(** integers up to 2^24 are not crossed *)
Lemma b32_ge_int : forall n d k, 0 <= k <= 2^24 -> 0 < d -> k * d <= n -> let (p, q) := b32 n d in k * q <= p.
Proof.
  intros n d k Hk Hd L. pose proof (b32_den n d) as Dn. destruct (Z.eq_dec n 0) as [->|].
  { cbn. nia. }
  assert (Hn: 0 < n) by nia. pose proof (exp_range32 n d Hn Hd) as R. unfold b32 in *. destruct (Z.eqb_spec n 0); [lia|].
  cbv zeta in R. set (e := b32_exp n d) in *. clearbody e. unfold sn, sd in R.
  destruct (Z.leb_spec 0 e) as [He|He].
  - pose proof (pow2_pos e ltac:(lia)). rewrite Z.mul_1_r.
    assert (M: 2^23 <= rne n (d * 2^e)) by (apply rne_ge; nia).
    destruct (Z.eq_dec e 0) as [->|].
    + rewrite !Z.mul_1_r. apply rne_ge; lia.
    + assert (2 <= 2^e). { change 2 with (2^1) at 1. apply Z.pow_le_mono_r; lia. }
      change (2^24) with (2 * 2^23) in *. nia.
  - pose proof (pow2_pos (-e) ltac:(lia)). apply rne_ge; [lia|]. nia.
Qed.

Lemma b32_le_int : forall n d k, 0 <= k <= 2^24 -> 0 <= n -> 0 < d -> n <= k * d -> let (p, q) := b32 n d in p <= k * q.
Proof.
  intros n d k Hk Hn Hd L. destruct (Z.eq_dec n 0) as [->|].
  { cbn. lia. }
  pose proof (exp_range32 n d ltac:(lia) Hd) as R. unfold b32 in *. destruct (Z.eqb_spec n 0); [lia|].
  cbv zeta in R. set (e := b32_exp n d) in *. clearbody e. unfold sn, sd in R.
  destruct (Z.leb_spec 0 e) as [He|He].
  - pose proof (pow2_pos e ltac:(lia)). rewrite Z.mul_1_r.
    destruct (Z.eq_dec e 0) as [->|].
    + rewrite !Z.mul_1_r. apply rne_le; lia.
    + assert (2 <= 2^e). { change 2 with (2^1) at 1. apply Z.pow_le_mono_r; lia. }
      (* n >= 2^23 * d * 2^e, so k >= 2^24 and equality *)
      assert (k * d >= 2^24 * d) by (change (2^24) with (2 * 2^23) in *; nia).
      assert (k = 2^24) by nia. subst k.
      assert (e = 1).
      { destruct (Z.eq_dec e 1); auto. exfalso. assert (4 <= 2^e). { change 4 with (2^2). apply Z.pow_le_mono_r; lia. } change (2^24) with (2 * 2^23) in *. nia. }
      subst e. change (2^1) with 2 in *. assert (rne n (d * 2) <= 2^23) by (apply rne_le; [lia|]; change (2^24) with (2 * 2^23) in *; lia).
      change (2^24) with (2^23 * 2). nia.
  - pose proof (pow2_pos (-e) ltac:(lia)). apply rne_le; [lia|]. nia.
Qed.

