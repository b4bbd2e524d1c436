(** Lemmas on rounding. *)
From Coq Require Import ZArith Bool Lia ZifyBool.
From Verif Require Import Double.
Open Scope Z_scope.

Lemma rne_err : forall n d, 0 < d -> - d <= 2 * (rne n d * d - n) <= d.
Proof.
  intros n d Hd. unfold rne. pose proof (Z.div_mod n d ltac:(lia)). pose proof (Z.mod_pos_bound n d Hd).
  set (q := n / d) in *. set (r := n mod d) in *. clearbody q r.
  destruct (Z.ltb_spec (2 * r) d); [nia|]. destruct (Z.ltb_spec d (2 * r)); [nia|]. destruct (Z.even q); nia.
Qed.

Lemma rne_mono : forall n m d, 0 < d -> n <= m -> rne n d <= rne m d.
Proof.
  intros n m d Hd L. unfold rne. pose proof (Z.div_mod n d ltac:(lia)). pose proof (Z.mod_pos_bound n d Hd).
  pose proof (Z.div_mod m d ltac:(lia)). pose proof (Z.mod_pos_bound m d Hd). pose proof (Z.div_le_mono n m d Hd L) as Q.
  set (q := n / d) in *. set (r := n mod d) in *. set (q' := m / d) in *. set (r' := m mod d) in *. clearbody q r q' r'.
  destruct (Z.eq_dec q q') as [->|].
  - assert (r <= r') by nia.
    destruct (Z.ltb_spec (2 * r) d); destruct (Z.ltb_spec (2 * r') d); try lia;
    destruct (Z.ltb_spec d (2 * r)); destruct (Z.ltb_spec d (2 * r')); try lia; destruct (Z.even q'); lia.
  - assert (q + 1 <= q') by lia.
    destruct (Z.ltb_spec (2 * r) d); destruct (Z.ltb_spec (2 * r') d); try lia;
    destruct (Z.ltb_spec d (2 * r)); destruct (Z.ltb_spec d (2 * r')); try lia; destruct (Z.even q); destruct (Z.even q'); lia.
Qed.

Lemma rne_int : forall k d, 0 < d -> rne (k * d) d = k.
Proof. intros k d Hd. unfold rne. rewrite Z.div_mul, Z.mod_mul by lia. destruct (Z.ltb_spec (2 * 0) d); lia. Qed.

Lemma rne_ge : forall n d k, 0 < d -> k * d <= n -> k <= rne n d.
Proof. intros n d k Hd L. rewrite <- (rne_int k d Hd). now apply rne_mono. Qed.
Lemma rne_le : forall n d k, 0 < d -> n <= k * d -> rne n d <= k.
Proof. intros n d k Hd L. rewrite <- (rne_int k d Hd). now apply rne_mono. Qed.

(** x and y scaled to a common denominator: n/(d*2^e) *)
Definition sn (n e : Z) : Z := if 0 <=? e then n else n * 2^(-e).
Definition sd (d e : Z) : Z := if 0 <=? e then d * 2^e else d.

Lemma pow2_pos : forall e, 0 <= e -> 0 < 2^e.
Proof. intros. apply Z.pow_pos_nonneg; lia. Qed.

Lemma sd_pos : forall d e, 0 < d -> 0 < sd d e.
Proof. intros d e Hd. unfold sd. destruct (Z.leb_spec 0 e); [|lia]. pose proof (pow2_pos e ltac:(lia)). nia. Qed.

Lemma exp_range : forall n d, 0 < n -> 0 < d -> let e := b64_exp n d in 2^52 * sd d e <= sn n e < 2^53 * sd d e.
Proof.
  intros n d Hn Hd. unfold b64_exp. set (e := Z.log2 n - Z.log2 d - 52).
  assert (A: 2^51 * sd d e < sn n e < 2^53 * sd d e).
  { pose proof (Z.log2_spec n Hn) as [N1 N2]. pose proof (Z.log2_spec d Hd) as [D1 D2].
    pose proof (Z.log2_nonneg n). pose proof (Z.log2_nonneg d).
    set (a := Z.log2 n) in *. set (b := Z.log2 d) in *. rewrite Z.pow_succ_r in N2, D2 by lia.
    unfold sn, sd. destruct (Z.leb_spec 0 e).
    - assert (E: 2^a = 2^b * 2^e * 2^52). { rewrite <- !Z.pow_add_r by lia. f_equal. unfold e. lia. }
      pose proof (pow2_pos e ltac:(lia)). pose proof (pow2_pos b ltac:(lia)). change (2^53) with (2 * 2^52). change (2^52) with (2 * 2^51) in *. nia.
    - assert (E: 2^a * 2^(-e) = 2^b * 2^52). { rewrite <- !Z.pow_add_r by lia. f_equal. unfold e. lia. }
      pose proof (pow2_pos (-e) ltac:(lia)). pose proof (pow2_pos b ltac:(lia)). change (2^53) with (2 * 2^52). change (2^52) with (2 * 2^51) in *. nia. }
  assert (Half: sn n (e - 1) * sd d e = 2 * sn n e * sd d (e - 1)).
  { unfold sn, sd. destruct (Z.leb_spec 0 (e - 1)), (Z.leb_spec 0 e); try lia.
    - replace (2^e) with (2 * 2^(e-1)); [ring|]. rewrite <- Z.pow_succ_r by lia. f_equal. lia.
    - assert (e = 0) by lia. replace e with 0 by lia. change (-(0 - 1)) with 1. ring.
    - replace (-(e-1)) with (Z.succ (-e)) by lia. rewrite Z.pow_succ_r by lia. ring. }
  pose proof (sd_pos d e Hd). pose proof (sd_pos d (e - 1) Hd).
  assert (C: (if 0 <=? e then n <? d * 2^e * 2^52 else n * 2^(-e) <? d * 2^52) = (sn n e <? 2^52 * sd d e)).
  { unfold sn, sd. destruct (0 <=? e); rewrite Z.mul_comm with (n := 2^52); reflexivity. }
  rewrite C. destruct (Z.ltb_spec (sn n e) (2^52 * sd d e)); [|split; [lia|tauto]].
  set (x := sn n (e-1)) in *. set (y := sd d (e-1)) in *. set (u := sn n e) in *. set (v := sd d e) in *. clearbody x y u v. clear C. change (2^53) with (2 * 2^52) in *. change (2^52) with (2*2^51) in *. nia.
Qed.

Lemma b64_den : forall n d, 0 < snd (b64 n d).
Proof.
  intros n d. unfold b64. destruct (n =? 0); [cbn; lia|]. destruct (Z.leb_spec 0 (b64_exp n d)); cbn [snd]; [lia|]. apply pow2_pos. lia.
Qed.

(** value relation: fst (b64 n d) / snd (b64 n d) = rne (sn/sd) * 2^e *)
Lemma b64_val : forall n d, 0 < n -> 0 < d -> let e := b64_exp n d in
  fst (b64 n d) * (if 0 <=? e then 1 else 2^(-e)) = rne (sn n e) (sd d e) * (if 0 <=? e then 2^e else 1) * snd (b64 n d).
Proof.
  intros n d Hn Hd e. unfold b64. destruct (Z.eqb_spec n 0); [lia|]. fold e. unfold sn, sd.
  destruct (0 <=? e); cbn [fst snd]; ring.
Qed.

(** relative error at most 2^-53 *)
Lemma b64_err : forall n d, 0 <= n -> 0 < d -> let (p, q) := b64 n d in - (n * q) <= 2^53 * (p * d - n * q) <= n * q.
Proof.
  intros n d Hn Hd. destruct (Z.eq_dec n 0) as [->|]; [cbn; lia|].
  pose proof (exp_range n d ltac:(lia) Hd) as R. unfold b64. destruct (Z.eqb_spec n 0); [lia|].
  cbv zeta in R. set (e := b64_exp n d) in *. clearbody e. unfold sn, sd in R.
  destruct (Z.leb_spec 0 e).
  - pose proof (pow2_pos e ltac:(lia)). pose proof (rne_err n (d * 2^e) ltac:(nia)) as Er.
    set (m := rne n (d * 2^e)) in *. clearbody m. set (w := 2^e) in *. clearbody w. change (2^53) with (2 * 2^52) in *. nia.
  - pose proof (pow2_pos (-e) ltac:(lia)). pose proof (rne_err (n * 2^(-e)) d Hd) as Er.
    set (m := rne _ d) in *. clearbody m. set (w := 2^(-e)) in *. clearbody w. change (2^53) with (2 * 2^52) in *. nia.
Qed.

Lemma b64_nonneg : forall n d, 0 <= n -> 0 < d -> 0 <= fst (b64 n d).
Proof.
  intros n d Hn Hd. pose proof (b64_err n d Hn Hd) as E. pose proof (b64_den n d) as D. destruct (b64 n d) as [p q]. cbn [fst snd] in *.
  destruct (Z.le_gt_cases 0 p); auto. exfalso. change (2^53) with 9007199254740992 in E. nia.
Qed.

(** integers up to 2^53 are not crossed *)
Lemma b64_ge_int : forall n d k, 0 <= k <= 2^53 -> 0 < d -> k * d <= n -> let (p, q) := b64 n d in k * q <= p.
Proof.
  intros n d k Hk Hd L. pose proof (b64_den n d) as Dn. destruct (Z.eq_dec n 0) as [->|].
  { cbn. nia. }
  assert (Hn: 0 < n) by nia. pose proof (exp_range n d Hn Hd) as R. unfold b64 in *. destruct (Z.eqb_spec n 0); [lia|].
  cbv zeta in R. set (e := b64_exp n d) in *. clearbody e. unfold sn, sd in R.
  destruct (Z.leb_spec 0 e) as [He|He].
  - pose proof (pow2_pos e ltac:(lia)). rewrite Z.mul_1_r.
    assert (M: 2^52 <= rne n (d * 2^e)) by (apply rne_ge; nia).
    destruct (Z.eq_dec e 0) as [->|].
    + rewrite !Z.mul_1_r. apply rne_ge; lia.
    + assert (2 <= 2^e). { change 2 with (2^1) at 1. apply Z.pow_le_mono_r; lia. }
      change (2^53) with (2 * 2^52) in *. nia.
  - pose proof (pow2_pos (-e) ltac:(lia)). apply rne_ge; [lia|]. nia.
Qed.

Lemma b64_le_int : forall n d k, 0 <= k <= 2^53 -> 0 <= n -> 0 < d -> n <= k * d -> let (p, q) := b64 n d in p <= k * q.
Proof.
  intros n d k Hk Hn Hd L. destruct (Z.eq_dec n 0) as [->|].
  { cbn. lia. }
  pose proof (exp_range n d ltac:(lia) Hd) as R. unfold b64 in *. destruct (Z.eqb_spec n 0); [lia|].
  cbv zeta in R. set (e := b64_exp n d) in *. clearbody e. unfold sn, sd in R.
  destruct (Z.leb_spec 0 e) as [He|He].
  - pose proof (pow2_pos e ltac:(lia)). rewrite Z.mul_1_r.
    destruct (Z.eq_dec e 0) as [->|].
    + rewrite !Z.mul_1_r. apply rne_le; lia.
    + assert (2 <= 2^e). { change 2 with (2^1) at 1. apply Z.pow_le_mono_r; lia. }
      (* n >= 2^52 * d * 2^e, so k >= 2^53 and equality *)
      assert (k * d >= 2^53 * d) by (change (2^53) with (2 * 2^52) in *; nia).
      assert (k = 2^53) by nia. subst k.
      assert (e = 1).
      { destruct (Z.eq_dec e 1); auto. exfalso. assert (4 <= 2^e). { change 4 with (2^2). apply Z.pow_le_mono_r; lia. } change (2^53) with (2 * 2^52) in *. nia. }
      subst e. change (2^1) with 2 in *. assert (rne n (d * 2) <= 2^52) by (apply rne_le; [lia|]; change (2^53) with (2 * 2^52) in *; lia).
      change (2^53) with (2^52 * 2). nia.
  - pose proof (pow2_pos (-e) ltac:(lia)). apply rne_le; [lia|]. nia.
Qed.

Lemma b64_int : forall n, 0 <= n <= 2^53 -> let (p, q) := b64 n 1 in p = n * q.
Proof.
  intros n Hn. pose proof (b64_ge_int n 1 n ltac:(lia) ltac:(lia) ltac:(lia)) as A. pose proof (b64_le_int n 1 n ltac:(lia) ltac:(lia) ltac:(lia) ltac:(lia)) as B.
  destruct (b64 n 1). lia.
Qed.

(** rounding is monotone *)
Lemma sd_ratio : forall n d e f, 0 < d -> e <= f -> sn n e * sd d f = sn n f * sd d e * 2^(f - e).
Proof.
  intros n d e f Hd L. unfold sn, sd. destruct (Z.leb_spec 0 e), (Z.leb_spec 0 f); try lia.
  - replace (2^f) with (2^e * 2^(f-e)); [ring|]. rewrite <- Z.pow_add_r by lia. f_equal. lia.
  - replace (2^(f-e)) with (2^f * 2^(-e)); [ring|]. rewrite <- Z.pow_add_r by lia. reflexivity.
  - replace (2^(-e)) with (2^(-f) * 2^(f-e)); [ring|]. rewrite <- Z.pow_add_r by lia. f_equal. lia.
Qed.

Lemma rne_scale : forall n d c, 0 < d -> 0 < c -> rne (n * c) (d * c) = rne n d.
Proof.
  intros n d c Hd Hc. unfold rne. rewrite Z.div_mul_cancel_r by lia. rewrite Z.mul_mod_distr_r by lia.
  set (r := n mod d). replace (2 * (r * c) <? d * c) with (2 * r <? d); [replace (d * c <? 2 * (r * c)) with (d <? 2 * r); [reflexivity|]|].
  - destruct (Z.ltb_spec d (2 * r)), (Z.ltb_spec (d * c) (2 * (r * c))); auto; nia.
  - destruct (Z.ltb_spec (2 * r) d), (Z.ltb_spec (2 * (r * c)) (d * c)); auto; nia.
Qed.

Lemma b64_pos_mono : forall n d n' d', 0 < n -> 0 < n' -> 0 < d -> 0 < d' -> n * d' <= n' * d ->
  fst (b64 n d) * snd (b64 n' d') <= fst (b64 n' d') * snd (b64 n d).
Proof.
  intros n d n' d' Hn Hn' Hd Hd' L.
  pose proof (exp_range n d Hn Hd) as R. pose proof (exp_range n' d' Hn' Hd') as R'. cbv zeta in R, R'.
  pose proof (b64_val n d Hn Hd) as V. pose proof (b64_val n' d' Hn' Hd') as V'. cbv zeta in V, V'.
  pose proof (b64_den n d) as D. pose proof (b64_den n' d') as D'.
  set (p := fst (b64 n d)) in *. set (q := snd (b64 n d)) in *. set (p' := fst (b64 n' d')) in *. set (q' := snd (b64 n' d')) in *.
  set (e := b64_exp n d) in *. set (e' := b64_exp n' d') in *. clearbody p q p' q' e e'.
  pose proof (sd_pos d e Hd) as S. pose proof (sd_pos d' e' Hd') as S'. pose proof (sd_pos d e' Hd) as S2. pose proof (sd_pos d' e Hd') as S2'.
  (* cross relation at the same exponent *)
  assert (X: forall x, sn n x * sd d' x <= sn n' x * sd d x).
  { intros x. unfold sn, sd. destruct (Z.leb_spec 0 x) as [Hx|Hx].
    - pose proof (pow2_pos x Hx). nia.
    - pose proof (pow2_pos (-x) ltac:(lia)). nia. }
  assert (M1: rne (sn n e) (sd d e) <= 2^53) by (apply rne_le; lia).
  assert (M2: 2^52 <= rne (sn n' e') (sd d' e')) by (apply rne_ge; lia).
  destruct (Z.lt_trichotomy e e') as [Lt|[->|Gt]].
  - set (m := rne (sn n e) (sd d e)) in *. set (m' := rne (sn n' e') (sd d' e')) in *. clearbody m m'.
    change (2^53) with (2 * 2^52) in *.
    destruct (Z.leb_spec 0 e), (Z.leb_spec 0 e'); try lia; rewrite ?Z.mul_1_r in V, V'.
    + assert (P: 2 * 2^e <= 2^e'). { rewrite <- Z.pow_succ_r by lia. apply Z.pow_le_mono_r; lia. }
      pose proof (pow2_pos e ltac:(lia)). set (u := 2^e) in *. set (v := 2^e') in *. clearbody u v.
      assert (m * u <= m' * v). { assert (m * u <= 2 * 2^52 * u) by nia. assert (2^52 * (2 * u) <= m' * v) by nia. lia. }
      rewrite V, V'. replace (m * u * q * q') with (m * u * (q * q')) by ring. replace (m' * v * q' * q) with (m' * v * (q * q')) by ring.
      apply Z.mul_le_mono_nonneg_r; nia.
    + pose proof (pow2_pos e' ltac:(lia)). assert (P: 2 <= 2^(-e)). { change 2 with (2^1) at 1. apply Z.pow_le_mono_r; lia. }
      set (u := 2^e') in *. set (v := 2^(-e)) in *. clearbody u v.
      assert (A: m <= m' * u * v). { assert (m' <= m' * u) by nia. assert (m' * u * 2 <= m' * u * v) by (apply Z.mul_le_mono_nonneg_l; lia). lia. }
      assert (B: p * q' * v <= p' * q * v); [|apply Z.mul_le_mono_pos_r in B; [exact B|nia]].
      replace (p * q' * v) with (m * (q * q')) by (rewrite Z.mul_assoc, <- V; ring). rewrite V'.
      replace (m' * u * q' * q * v) with (m' * u * v * (q * q')) by ring. apply Z.mul_le_mono_nonneg_r; nia.
    + assert (P: 2 * 2^(-e') <= 2^(-e)). { rewrite <- Z.pow_succ_r by lia. apply Z.pow_le_mono_r; lia. }
      pose proof (pow2_pos (-e') ltac:(lia)).
      set (u := 2^(-e)) in *. set (v := 2^(-e')) in *. clearbody u v.
      assert (A: m * v <= m' * u). { assert (m * v <= 2 * 2^52 * v) by nia. assert (2^52 * (2 * v) <= m' * u) by nia. lia. }
      assert (B: (p * q') * (u * v) <= (p' * q) * (u * v)); [|apply Z.mul_le_mono_pos_r in B; [exact B|nia]].
      replace ((p * q') * (u * v)) with ((p * u) * q' * v) by ring.
      replace ((p' * q) * (u * v)) with ((p' * v) * q * u) by ring. rewrite V, V'.
      replace (m * q * q' * v) with (m * v * (q * q')) by ring. replace (m' * q' * q * u) with (m' * u * (q * q')) by ring.
      apply Z.mul_le_mono_nonneg_r; nia.
  - assert (Q: rne (sn n e') (sd d e') <= rne (sn n' e') (sd d' e')).
    { rewrite <- (rne_scale (sn n e') (sd d e') (sd d' e')) by lia. rewrite <- (rne_scale (sn n' e') (sd d' e') (sd d e')) by lia.
      rewrite (Z.mul_comm (sd d' e') (sd d e')). apply rne_mono; [nia|]. apply X. }
    set (m := rne (sn n e') (sd d e')) in *. set (m' := rne (sn n' e') (sd d' e')) in *. clearbody m m'.
    destruct (Z.leb_spec 0 e').
    + pose proof (pow2_pos e' ltac:(lia)). rewrite Z.mul_1_r in V, V'. set (u := 2^e') in *. clearbody u. rewrite V, V'.
      replace (m * u * q * q') with (m * (u * (q * q'))) by ring. replace (m' * u * q' * q) with (m' * (u * (q * q'))) by ring.
      apply Z.mul_le_mono_nonneg_r; nia.
    + pose proof (pow2_pos (-e') ltac:(lia)). set (u := 2^(-e')) in *. clearbody u. rewrite Z.mul_1_r in V, V'.
      assert (B: (p * q') * u <= (p' * q) * u); [|apply Z.mul_le_mono_pos_r in B; [exact B|nia]].
      replace ((p * q') * u) with (p * u * q') by ring. replace ((p' * q) * u) with (p' * u * q) by ring. rewrite V, V'.
      replace (m * q * q') with (m * (q * q')) by ring. replace (m' * q' * q) with (m' * (q * q')) by ring.
      apply Z.mul_le_mono_nonneg_r; nia.
  - exfalso. specialize (X e). pose proof (sd_ratio n' d' e' e Hd' ltac:(lia)) as Rt.
    assert (P: 2 <= 2^(e - e')). { change 2 with (2^1) at 1. apply Z.pow_le_mono_r; lia. }
    set (w := 2^(e-e')) in *. clearbody w.
    set (a := sn n e) in *. set (b := sd d e) in *. set (a' := sn n' e) in *. set (b' := sd d' e) in *.
    set (c := sn n' e') in *. set (f := sd d' e') in *. clearbody a b a' b' c f. change (2^53) with (2 * 2^52) in *.
    assert (A1: 2^52 * b' <= a').
    { assert (Y: (2^52 * b') * b <= a' * b) by nia. apply Z.mul_le_mono_pos_r in Y; [exact Y|lia]. }
    assert (A2: 2^52 * b' * (f * 2) <= a' * (f * w)) by (apply Z.mul_le_mono_nonneg; nia).
    assert (A3: c * b' < 2 * 2^52 * f * b') by (apply Z.mul_lt_mono_pos_r; lia). lia.
Qed.

Lemma b64_mono : forall n d n' d', 0 <= n -> 0 <= n' -> 0 < d -> 0 < d' -> n * d' <= n' * d ->
  fst (b64 n d) * snd (b64 n' d') <= fst (b64 n' d') * snd (b64 n d).
Proof.
  intros n d n' d' Hn Hn' Hd Hd' L. pose proof (b64_den n d). pose proof (b64_den n' d').
  destruct (Z.eq_dec n 0) as [->|]; [|destruct (Z.eq_dec n' 0) as [->|]].
  - pose proof (b64_nonneg n' d' Hn' Hd'). unfold b64 at 1. cbn [Z.eqb fst]. unfold b64 at 3. cbn [Z.eqb snd]. nia.
  - nia.
  - apply b64_pos_mono; auto; lia.
Qed.
