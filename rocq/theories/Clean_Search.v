(** The interpolation search of the clean-up: bounds on the index it looks at. *)
From Coq Require Import ZArith List Bool QArith Lqa Lia ZifyBool ZifyNat.
From Verif Require Import Base BaseLemmas Arith_Model Double Double_Proofs Clean_Model.
Import ListNotations.
Open Scope Z_scope.

Definition qv (x : Z * Z) : Q := (fst x # Z.to_pos (snd x))%Q.
Definition uu : Q := (1 # (2^53)%positive)%Q.
Definition ok (x : Z * Z) : Prop := 0 <= fst x /\ 0 < snd x.

Lemma b64_ok : forall n d, 0 <= n -> 0 < d -> ok (b64 n d).
Proof. intros. split; [now apply b64_nonneg|apply b64_den]. Qed.

Lemma b64_q : forall n d, 0 <= n -> 0 < d ->
  (qv (b64 n d) <= (n # Z.to_pos d) * (1 + uu) /\ (n # Z.to_pos d) * (1 - uu) <= qv (b64 n d))%Q.
Proof.
  intros n d N D. pose proof (b64_err n d N D) as E. pose proof (b64_den n d) as Q. unfold qv.
  destruct (b64 n d) as (p, q). cbn [fst snd] in *.
  unfold Qle, Qmult, Qplus, Qminus, Qopp, uu. cbn [Qnum Qden]. rewrite ?Pos2Z.inj_mul, !Z2Pos.id by lia.
  change (2^53) with 9007199254740992 in E. change (Z.pos (2^53)) with 9007199254740992.
  change (Qnum (1 + (- (1) # 2 ^ 53))) with 9007199254740991. change (QDen (1 + (- (1) # 2 ^ 53))) with 9007199254740992.
  assert (N': 0 <= n * q) by nia. split; lia.
Qed.

Lemma qv_nonneg : forall x, ok x -> (0 <= qv x)%Q.
Proof. intros (p, q) (A & B). unfold qv, Qle. cbn [fst snd Qnum Qden] in *. lia. Qed.

Lemma d_int_exact : forall n, 0 <= n <= 2^53 -> (qv (d_int n) == inject_Z n)%Q.
Proof.
  intros n N. pose proof (b64_int n N) as E. pose proof (b64_den n 1) as D. unfold d_int, qv. destruct (b64 n 1) as (p, q). cbn [fst snd] in *.
  unfold Qeq, inject_Z. cbn [Qnum Qden]. rewrite Z2Pos.id by lia. lia.
Qed.

Lemma d_int_q : forall n, 0 <= n -> (qv (d_int n) <= inject_Z n * (1 + uu) /\ inject_Z n * (1 - uu) <= qv (d_int n))%Q.
Proof. intros n N. exact (b64_q n 1 N eq_refl). Qed.

Lemma mul_q : forall x y, ok x -> ok y -> (qv (d_mul x y) <= qv x * qv y * (1 + uu) /\ qv x * qv y * (1 - uu) <= qv (d_mul x y))%Q.
Proof.
  intros (a, b) (c, d) (A & B) (C & D). cbn [fst snd] in *. pose proof (b64_q (a * c) (b * d) ltac:(nia) ltac:(nia)) as E.
  unfold d_mul. cbn [fst snd]. change (qv (a, b)) with (a # Z.to_pos b)%Q. change (qv (c, d)) with (c # Z.to_pos d)%Q.
  assert (X: ((a # Z.to_pos b) * (c # Z.to_pos d) == (a * c # Z.to_pos (b * d)))%Q).
  { unfold Qmult, Qeq. cbn [Qnum Qden]. rewrite ?Pos2Z.inj_mul, !Z2Pos.id by nia. lia. }
  rewrite X. exact E.
Qed.

Lemma div_q : forall x y, ok x -> ok y -> 0 < fst y -> (qv (d_div x y) * qv y <= qv x * (1 + uu) /\ qv x * (1 - uu) <= qv (d_div x y) * qv y)%Q.
Proof.
  intros (a, b) (c, d) (A & B) (C & D) CP. cbn [fst snd] in *. pose proof (b64_q (a * d) (b * c) ltac:(nia) ltac:(nia)) as (E1 & E2).
  unfold d_div. cbn [fst snd]. generalize dependent (qv (b64 (a * d) (b * c))). intros z E1 E2.
  assert (YP: (0 < c # Z.to_pos d)%Q) by (unfold Qlt; cbn [Qnum Qden]; lia).
  assert (X: ((a * d # Z.to_pos (b * c)) * (c # Z.to_pos d) == (a # Z.to_pos b))%Q).
  { unfold Qmult, Qeq. cbn [Qnum Qden]. rewrite ?Pos2Z.inj_mul, !Z2Pos.id by nia. nia. }
  change (qv (c, d)) with (c # Z.to_pos d)%Q. change (qv (a, b)) with (a # Z.to_pos b)%Q.
  split.
  - apply Qle_trans with ((a * d # Z.to_pos (b * c)) * (1 + uu) * (c # Z.to_pos d))%Q.
    + apply Qmult_le_compat_r; [exact E1|lra].
    + rewrite <- X. lra.
  - apply Qle_trans with ((a * d # Z.to_pos (b * c)) * (1 - uu) * (c # Z.to_pos d))%Q.
    + rewrite <- X. lra.
    + apply Qmult_le_compat_r; [exact E2|lra].
Qed.

Lemma ok_int : forall n, 0 <= n -> ok (d_int n).
Proof. intros. now apply b64_ok. Qed.
Lemma ok_mul : forall x y, ok x -> ok y -> ok (d_mul x y).
Proof. intros x y (A & B) (C & D). apply b64_ok; nia. Qed.
Lemma ok_div : forall x y, ok x -> ok y -> 0 < fst y -> ok (d_div x y).
Proof. intros x y (A & B) (C & D) E. apply b64_ok; nia. Qed.
Lemma ok_add : forall x y, ok x -> ok y -> ok (d_add x y).
Proof. intros x y (A & B) (C & D). apply b64_ok; nia. Qed.

Lemma pos_div : forall x y, ok x -> ok y -> 0 < fst y -> 0 < fst x -> 0 < fst (d_div x y).
Proof.
  intros x y X Y YP XP. pose proof (div_q x y X Y YP) as (_ & E). pose proof (ok_div x y X Y YP) as (O1 & O2).
  assert (fst (d_div x y) <> 0); [|lia]. intros Z0.
  assert (XQ: (0 < qv x)%Q) by (destruct x as (a, b); unfold qv, Qlt; cbn [fst snd Qnum Qden] in *; destruct X; lia).
  assert (V: (qv (d_div x y) == 0)%Q) by (unfold qv; rewrite Z0; reflexivity).
  rewrite V in E. assert (C: (0 < 1 - uu)%Q) by reflexivity.
  assert (0 < qv x * (1 - uu))%Q by (apply Qmult_lt_0_compat; assumption). lra.
Qed.
Lemma pos_int : forall n, 0 < n -> 0 < fst (d_int n).
Proof.
  intros n N. pose proof (b64_ge_int n 1 1 ltac:(lia) ltac:(lia) ltac:(lia)) as E. unfold d_int. pose proof (b64_den n 1). destruct (b64 n 1). cbn [fst snd] in *. lia.
Qed.

Lemma m32_exact : (qv (d_int M32) == 4294967296)%Q.
Proof. vm_compute. reflexivity. Qed.
Lemma m32_pos : 0 < fst (d_int M32).
Proof. apply pos_int. lia. Qed.

Lemma ok_num : forall x, 0 <= x -> ok (num64_double x).
Proof. intros x X. apply ok_div; [now apply ok_int|now apply ok_int|exact m32_pos]. Qed.
Lemma pos_num : forall x, 0 < x -> 0 < fst (num64_double x).
Proof. intros x X. apply pos_div; [apply ok_int; lia|now apply ok_int|exact m32_pos|now apply pos_int]. Qed.

Lemma num_q : forall x, 0 <= x ->
  (qv (num64_double x) * 4294967296 <= inject_Z x * ((1 + uu) * (1 + uu)) /\ inject_Z x * ((1 - uu) * (1 - uu)) <= qv (num64_double x) * 4294967296)%Q.
Proof.
  intros x X. pose proof (div_q (d_int x) (d_int M32) (ok_int x X) (ok_int M32 ltac:(lia)) m32_pos) as (A & B).
  rewrite m32_exact in A, B. pose proof (d_int_q x X) as (C & D). unfold num64_double.
  split.
  - eapply Qle_trans; [exact A|]. rewrite Qmult_assoc. apply Qmult_le_compat_r; [exact C|]. discriminate.
  - eapply Qle_trans; [|exact B]. rewrite Qmult_assoc. apply Qmult_le_compat_r; [exact D|]. discriminate.
Qed.

Lemma estimate_core : forall X Mv Rv Pv r' p' n' c u w : Q, (0 <= X -> 0 < r' -> 0 <= n' -> 0 <= p' -> 0 <= c -> 0 < u -> 0 < w ->
  p' <= c * r' -> X * Rv <= Mv * u -> Mv <= Pv * n' * u -> Pv * 4294967296 <= p' * (u * u) -> r' * (w * w) <= Rv * 4294967296 ->
  X * (w * w) <= c * n' * (u * u * u * u))%Q.
Proof.
  intros X Mv Rv Pv r' p' n' c u w XE RQ NQ PQ C U1 U2 PR E M A B.
  apply (Qmult_le_r _ _ r' RQ).
  (* X r w w <= X Rv 2^32 <= Mv u 2^32 <= Pv n u u 2^32 <= p u u n u u <= c r u^4 n *)
  apply Qle_trans with (X * (Rv * 4294967296))%Q.
  { setoid_replace (X * (w * w) * r')%Q with ((r' * (w * w)) * X)%Q by ring. rewrite (Qmult_comm X). apply Qmult_le_compat_r; assumption. }
  apply Qle_trans with (Mv * u * 4294967296)%Q.
  { rewrite Qmult_assoc. apply Qmult_le_compat_r; [exact E|discriminate]. }
  apply Qle_trans with (Pv * n' * u * u * 4294967296)%Q.
  { apply Qmult_le_compat_r; [|discriminate]. apply Qmult_le_compat_r; [exact M|lra]. }
  apply Qle_trans with (p' * (u * u) * (n' * u * u))%Q.
  { setoid_replace (Pv * n' * u * u * 4294967296)%Q with (Pv * 4294967296 * (n' * u * u))%Q by ring.
    apply Qmult_le_compat_r; [exact A|]. apply Qmult_le_0_compat; [apply Qmult_le_0_compat|]; lra. }
  setoid_replace (c * n' * (u * u * u * u) * r')%Q with (c * r' * ((u * u) * (n' * u * u)))%Q by ring.
  rewrite <- Qmult_assoc. apply Qmult_le_compat_r; [exact PR|].
  apply Qmult_le_0_compat; [apply Qmult_le_0_compat; lra|]. apply Qmult_le_0_compat; [apply Qmult_le_0_compat|]; lra.
Qed.

(** the estimate: n * p / r, for p <= c * r *)
Lemma estimate : forall p r n c, 0 <= p -> 0 < r -> 0 <= n <= 2^32 -> (0 <= c)%Q -> (inject_Z p <= c * inject_Z r)%Q ->
  let e := d_div (d_mul (num64_double p) (d_int n)) (num64_double r) in
  ok e /\ (qv e * ((1 - uu) * (1 - uu)) <= c * inject_Z n * ((1 + uu) * (1 + uu) * (1 + uu) * (1 + uu)))%Q.
Proof.
  intros p r n c P R N C PR e.
  assert (OM: ok (d_mul (num64_double p) (d_int n))) by (apply ok_mul; [now apply ok_num|apply ok_int; lia]).
  assert (OR: ok (num64_double r)) by (apply ok_num; lia). assert (PoR := pos_num r R).
  assert (OE: ok e) by (apply ok_div; assumption). split; [exact OE|].
  pose proof (div_q _ _ OM OR PoR) as (E & _). fold e in E.
  pose proof (mul_q _ _ (ok_num p P) (ok_int n ltac:(lia))) as (M & _).
  rewrite (d_int_exact n) in M by (change (2^53) with 9007199254740992; change (2^32) with 4294967296 in N; lia).
  pose proof (num_q p P) as (A & _). pose proof (num_q r ltac:(lia)) as (_ & B).
  pose proof (qv_nonneg _ OE) as XE.
  assert (RQ: (0 < inject_Z r)%Q) by (unfold Qlt, inject_Z; cbn [Qnum Qden]; lia).
  assert (NQ: (0 <= inject_Z n)%Q) by (unfold Qle, inject_Z; cbn [Qnum Qden]; lia).
  assert (PQ: (0 <= inject_Z p)%Q) by (unfold Qle, inject_Z; cbn [Qnum Qden]; lia).
  eapply estimate_core; [exact XE|exact RQ|exact NQ|exact PQ|exact C|reflexivity|reflexivity|exact PR|exact E|exact M|exact A|exact B].
Qed.

Lemma add_q : forall k y, 0 <= k <= 2^53 -> ok y ->
  (qv (d_add (d_int k) y) <= (inject_Z k + qv y) * (1 + uu))%Q /\ k * snd (d_add (d_int k) y) <= fst (d_add (d_int k) y) /\ ok (d_add (d_int k) y).
Proof.
  intros k (c, d) K (C & D). cbn [fst snd] in *.
  pose proof (b64_int k K) as E. pose proof (b64_den k 1) as DD. unfold d_add, d_int. destruct (b64 k 1) as (a, b). cbn [fst snd] in *.
  assert (NN: 0 <= a * d + c * b) by nia. assert (DP: 0 < b * d) by nia.
  split; [|split].
  - pose proof (b64_q (a * d + c * b) (b * d) NN DP) as (Q & _). eapply Qle_trans; [exact Q|].
    apply Qmult_le_compat_r; [|discriminate]. unfold Qle, Qplus, inject_Z, qv. cbn [Qnum Qden fst snd]. rewrite ?Pos2Z.inj_mul, !Z2Pos.id by nia. nia.
  - pose proof (b64_ge_int (a * d + c * b) (b * d) k K DP ltac:(nia)) as G. destruct (b64 _ _); cbn [fst snd]. exact G.
  - now apply b64_ok.
Qed.

Lemma trunc_lt : forall x k, ok x -> (qv x < inject_Z k)%Q -> d_trunc x < k.
Proof.
  intros (p, q) k (A & B) L. cbn [fst snd] in *. unfold qv, Qlt, inject_Z in L. cbn [fst snd Qnum Qden] in L. rewrite Z2Pos.id in L by lia.
  unfold d_trunc. cbn [fst snd]. apply Z.div_lt_upper_bound; lia.
Qed.
Lemma trunc_ge : forall x k, ok x -> k * snd x <= fst x -> k <= d_trunc x.
Proof. intros (p, q) k (A & B) L. cbn [fst snd] in *. unfold d_trunc. cbn [fst snd]. apply Z.div_le_lower_bound; lia. Qed.

(** the index lies in the part that is searched *)
Lemma mid_range : forall thresh lowR highR lowI highI, 0 <= lowR < thresh -> thresh <= highR -> highR < 2^64 ->
  0 <= lowI -> lowI + 1 < highI -> highI < 2^32 ->
  exists m, interpolate thresh lowR highR lowI highI = Some m /\ lowI < m <= highI /\
    ((highR - lowR <= 2^20 * (highR - thresh)) -> m < highI).
Proof.
  intros thresh lowR highR lowI highI LT TH HB LI LH HI.
  change (2^64) with 18446744073709551616 in HB. change (2^32) with 4294967296 in HI. change (2^20) with 1048576.
  unfold interpolate, OWPNum64Sub, u64, u32. rewrite !Z.mod_small by lia.
  destruct (Z.eqb_spec (highR - lowR) 0) as [?|_]; [lia|].
  set (p := thresh - lowR). set (r := highR - lowR). set (n := highI - lowI).
  set (e := d_div (d_mul (num64_double p) (d_int n)) (num64_double r)).
  assert (K53: 0 <= lowI <= 2^53) by (change (2^53) with 9007199254740992; lia).
  assert (N32: 0 <= n <= 2^32) by (change (2^32) with 4294967296; lia).
  assert (QL: (0 <= inject_Z lowI)%Q) by (unfold Qle, inject_Z; cbn [Qnum Qden]; lia).
  assert (QN2: (2 <= inject_Z n)%Q) by (unfold Qle, inject_Z; cbn [Qnum Qden]; lia).
  assert (QN: (inject_Z n == inject_Z highI - inject_Z lowI)%Q) by (unfold Qeq, Qminus, Qplus, Qopp, inject_Z; cbn [Qnum Qden]; lia).
  assert (QH: (inject_Z highI <= 4294967295)%Q) by (unfold Qle, inject_Z; cbn [Qnum Qden]; lia).
  assert (QR: (0 < inject_Z r)%Q) by (unfold Qlt, inject_Z; cbn [Qnum Qden]; lia).
  (* upper bound from a bound on the portion *)
  assert (UB: forall c, (0 <= c)%Q -> (inject_Z p <= c * inject_Z r)%Q ->
    ok e /\ (qv e <= c * inject_Z n * (1 + (1 # 2^49)))%Q).
  { intros c C PR. pose proof (estimate p r n c ltac:(lia) ltac:(lia) N32 C PR) as (OE & X). fold e in OE, X. split; [exact OE|].
    assert (W: (0 < (1 - uu) * (1 - uu))%Q) by reflexivity.
    apply (Qmult_le_r _ _ _ W). eapply Qle_trans; [exact X|].
    setoid_replace (c * inject_Z n * (1 + (1 # 2^49)) * ((1 - uu) * (1 - uu)))%Q with (((1 + (1 # 2^49)) * ((1 - uu) * (1 - uu))) * (c * inject_Z n))%Q by ring.
    rewrite (Qmult_comm (c * inject_Z n)). apply Qmult_le_compat_r; [vm_compute; discriminate|].
    apply Qmult_le_0_compat; [exact C|lra]. }
  destruct (UB 1%Q ltac:(discriminate)) as (OE & X1).
  { rewrite Qmult_1_l. unfold Qle, inject_Z; cbn [Qnum Qden]; lia. }
  destruct (add_q lowI e K53 OE) as (A1 & A2 & A3).
  set (s := d_add (d_int lowI) e) in *.
  assert (M1: lowI <= d_trunc s) by (apply trunc_ge; assumption).
  assert (M2: d_trunc s < highI + 1).
  { apply trunc_lt; [exact A3|]. eapply Qle_lt_trans; [exact A1|].
    apply Qle_lt_trans with ((inject_Z lowI + 1 * inject_Z n * (1 + (1 # 2^49))) * (1 + uu))%Q.
    - apply Qmult_le_compat_r; [lra|discriminate].
    - rewrite inject_Z_plus. change (inject_Z 1) with 1%Q. rewrite QN. unfold uu. change (2^49)%positive with 562949953421312%positive. change (2^53)%positive with 9007199254740992%positive.
      generalize dependent (inject_Z lowI). generalize dependent (inject_Z highI). intros. lra. }
  destruct (Z.ltb_spec (d_trunc s) M32); [|lia].
  eexists. split; [reflexivity|].
  destruct (Z.eqb_spec (d_trunc s) lowI) as [E|E].
  - rewrite E. rewrite Z.mod_small by lia. split; [lia|intros; lia].
  - split; [lia|]. intros SEP.
    destruct (UB (1 - (1 # 1048576))%Q ltac:(discriminate)) as (_ & X2).
    { unfold Qle, Qmult, Qminus, Qplus, Qopp, inject_Z. cbn [Qnum Qden]. lia. }
    apply trunc_lt; [exact A3|]. eapply Qle_lt_trans; [exact A1|].
    apply Qle_lt_trans with ((inject_Z lowI + (1 - (1 # 1048576)) * inject_Z n * (1 + (1 # 2^49))) * (1 + uu))%Q.
    + apply Qmult_le_compat_r; [lra|discriminate].
    + rewrite QN. rewrite QN in QN2. unfold uu. change (2^49)%positive with 562949953421312%positive. change (2^53)%positive with 9007199254740992%positive.
      generalize dependent (inject_Z lowI). generalize dependent (inject_Z highI). intros. lra.
Qed.
