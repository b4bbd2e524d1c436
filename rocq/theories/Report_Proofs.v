From Coq Require Import ZArith List Bool QArith Lqa Lia ZifyBool ZifyNat Sorted.
From Verif Require Import Base BaseLemmas Double Double_Proofs Single Single_Proofs Stats_Model Stats_Spec Stats_Report Options_Model Options_Spec Options_Proofs Clean_Search Report_Model Report_Spec.
Import ListNotations.
Open Scope Z_scope.

(** ** samples *)
Lemma num_sum_ceil : forall n np, 1 <= n < np -> num_sum n np = (np + n - 1) / n /\ 2 <= num_sum n np /\ n * (num_sum n np - 1) < np <= n * num_sum n np.
Proof.
  intros n np B. unfold num_sum. replace ((n =? 0) || (np <=? n)) with false by lia.
  pose proof (Z.div_mod np n ltac:(lia)) as D. pose proof (Z.mod_pos_bound np n ltac:(lia)) as M.
  set (q := np / n) in *. set (r := np mod n) in *. clearbody q r. subst np.
  assert (1 <= q) by nia.
  destruct (Z.eqb_spec r 0) as [->|R].
  - split; [|nia]. rewrite Z.add_0_r. apply (Z.div_unique _ _ _ (n - 1)); [lia|ring].
  - split; [|nia]. apply (Z.div_unique _ _ _ (r - 1)); [lia|ring].
Qed.

Lemma pieces_ne : forall n a b l, pieces n a b l -> l <> [].
Proof. intros n a b [|x l] P; [destruct P|discriminate]. Qed.
Lemma pieces_cons : forall n a b l, pieces n (a + n) b l -> pieces n a b ((a, a + n) :: l).
Proof. intros n a b l P. pose proof (pieces_ne _ _ _ _ P). destruct l as [|y l]; [congruence|]. cbn [pieces]. auto. Qed.

Lemma samples_pieces : forall n np k sum, 1 <= n -> np < 2^32 -> 0 <= sum -> (0 < k)%nat ->
  n * (sum + Z.of_nat k - 1) < np <= n * (sum + Z.of_nat k) -> n * (sum + Z.of_nat k) < 2^32 ->
  exists l, samples_from k sum n np = (l, true) /\ pieces n (n * sum) np l.
Proof.
  intros n np. induction k as [|k IH]; intros sum N U S0 K B W; [lia|]. cbn [samples_from].
  assert (B0 : u32 (n * sum) = n * sum) by (unfold u32; apply Z.mod_small; nia).
  assert (B1 : u32 (n * (sum + 1)) = n * (sum + 1)) by (unfold u32; apply Z.mod_small; nia).
  rewrite B0, B1. destruct (Nat.eq_dec k 0) as [->|NK].
  - cbn [samples_from]. replace (sum + Z.of_nat 1 - 1) with sum in B by lia. change (Z.of_nat 1) with 1 in *.
    exists [(n * sum, np)]. split; [|cbn [pieces]; nia].
    unfold parse_range. destruct (Z.ltb_spec np (n * (sum + 1))) as [L|L].
    + change (4294967295 =? 4294967295) with true. cbv iota zeta. replace ((np <? n * sum) || (np <? np)) with false by lia. reflexivity.
    + assert (E : n * (sum + 1) = np) by lia. rewrite E. destruct (Z.eqb_spec np 4294967295) as [E'|E']; cbv zeta; replace ((np <? n * sum) || (np <? np)) with false by lia; reflexivity.
  - destruct (IH (sum + 1) N U ltac:(lia) ltac:(lia)) as (l & E & P); [nia|nia|].
    assert (L : n * (sum + 1) < np) by nia.
    replace (np <? n * (sum + 1)) with false by lia. unfold parse_range. replace (n * (sum + 1) =? 4294967295) with false by lia. cbv zeta.
    replace ((n * (sum + 1) <? n * sum) || (np <? n * (sum + 1))) with false by nia.
    rewrite E. exists ((n * sum, n * (sum + 1)) :: l). split; [reflexivity|].
    replace (n * (sum + 1)) with (n * sum + n) in * by ring. now apply pieces_cons.
Qed.

Lemma samples_fail : forall n np k sum, 1 <= n -> np < 2^32 -> 0 <= sum -> (1 < k)%nat ->
  n * (sum + Z.of_nat k - 1) < np <= n * (sum + Z.of_nat k) -> 2^32 <= n * (sum + Z.of_nat k) ->
  exists l, samples_from k sum n np = (l, false) /\ pieces n (n * sum) (n * (sum + Z.of_nat k - 1)) l.
Proof.
  intros n np. induction k as [|k IH]; intros sum N U S0 K B W; [lia|]. cbn [samples_from].
  assert (B0 : u32 (n * sum) = n * sum) by (unfold u32; apply Z.mod_small; nia).
  assert (L : n * (sum + 1) < np) by nia.
  assert (B1 : u32 (n * (sum + 1)) = n * (sum + 1)) by (unfold u32; apply Z.mod_small; nia).
  rewrite B0, B1.
  replace (np <? n * (sum + 1)) with false by lia. unfold parse_range at 1. replace (n * (sum + 1) =? 4294967295) with false by lia. cbv zeta.
  replace ((n * (sum + 1) <? n * sum) || (np <? n * (sum + 1))) with false by nia.
  destruct (Nat.eq_dec k 1) as [->|NK].
  - cbn [samples_from]. change (Z.of_nat 2) with 2 in *. replace (sum + 1 + 1) with (sum + 2) by lia.
    assert (B2 : u32 (n * (sum + 2)) = n * (sum + 2) - 2^32).
    { unfold u32. symmetry. apply (Z.mod_unique _ _ 1); [left; nia|lia]. }
    rewrite B1, B2. replace (sum + 2 - 1) with (sum + 1) in * by lia.
    replace (np <? n * (sum + 2) - 2 ^ 32) with false by nia. unfold parse_range. replace (n * (sum + 2) - 2 ^ 32 =? 4294967295) with false by nia. cbv zeta.
    replace ((n * (sum + 2) - 2 ^ 32 <? n * (sum + 1)) || (np <? n * (sum + 2) - 2 ^ 32)) with true by nia.
    exists [(n * sum, n * (sum + 1))]. split; [reflexivity|]. cbn [pieces]. nia.
  - destruct (IH (sum + 1) N U ltac:(lia) ltac:(lia)) as (l & E & P); [nia|nia|].
    rewrite E. exists ((n * sum, n * (sum + 1)) :: l). split; [reflexivity|].
    replace (sum + Z.of_nat (S k) - 1) with (sum + 1 + Z.of_nat k - 1) by lia.
    replace (n * (sum + 1)) with (n * sum + n) in * by ring. now apply pieces_cons.
Qed.

Lemma pieces_covers : forall n l a b q, 1 <= n -> pieces n a b l -> (a <= q < b -> covers q l = 1%nat) /\ (~ a <= q < b -> covers q l = 0%nat) /\ a < b.
Proof.
  intros n. induction l as [|[x y] l IH]; intros a b q N P; [destruct P|]. destruct l as [|z l].
  - cbn [pieces] in P. destruct P as (-> & -> & P). unfold covers. cbn [filter fst snd]. destruct ((a <=? q) && (q <? b)) eqn:E; cbn [length]; split; try lia; split; lia.
  - assert (P' : x = a /\ y = a + n /\ pieces n y b (z :: l)) by exact P. destruct P' as (-> & -> & P'). destruct (IH (a + n) b q N P') as (I1 & I2 & I3).
    unfold covers in *. cbn [filter fst snd] in *.
    destruct ((a <=? q) && (q <? a + n)) eqn:E.
    + cbn [length]. rewrite I2 by lia. split; [reflexivity|]. split; [lia|lia].
    + split; [intros Q; apply I1; lia|]. split; [intros Q; apply I2; lia|lia].
Qed.

(** ** percentiles *)
Section Alpha.
Variable strtod : list Z -> option number.
Lemma parse_alphas_ok : forall l ss, parse_alphas strtod l = Some ss <-> Forall2 (fun t s => parse_alpha strtod t = Some s) l ss.
Proof.
  induction l as [|t l IH]; intros ss; cbn [parse_alphas].
  - split; [intros [= <-]; constructor|intros F; inversion F; reflexivity].
  - destruct (parse_alpha strtod t) as [a|] eqn:E.
    + destruct (parse_alphas strtod l) as [l'|] eqn:El.
      * split; [intros [= <-]; constructor; [exact E|apply IH; reflexivity]|]. intros F. inversion F as [|? y ? r E1 F1]; subst. rewrite E in E1. injection E1 as <-. apply IH in F1. congruence.
      * split; [discriminate|]. intros F. inversion F as [|? y ? r E1 F1]; subst. apply IH in F1. congruence.
    + split; [discriminate|]. intros F. inversion F; subst. congruence.
Qed.
Hypothesis strtod_nil : strtod [] = None.
Lemma parse_percentile_ok : forall parts ss, parts <> [] -> Forall (fun p => ~ In 44 p) parts ->
  (parse_percentile strtod (commas parts) = Some ss <-> Forall2 (fun t s => parse_alpha strtod t = Some s) parts ss).
Proof.
  intros parts ss N F. unfold parse_percentile. rewrite tokens_commas, count_commas by assumption. split.
  - intros E. destruct (parse_alphas strtod _) as [l|] eqn:P; [|discriminate]. destruct (Nat.eqb_spec (length l) (length parts)) as [L|L]; [|discriminate].
    injection E as <-. apply parse_alphas_ok in P.
    assert (X : flat_map (fun p : list Z => match p with [] => [] | _ => [p] end) parts = parts).
    { assert (LL : length (flat_map (fun p : list Z => match p with [] => [] | _ => [p] end) parts) = length parts).
      { rewrite <- L. clear -P. induction P; cbn; congruence. }
      clear -LL. revert LL. induction parts as [|p parts IH]; intros LL; [reflexivity|]. cbn [flat_map] in *.
      assert (B : forall q : list (list Z), (length (flat_map (fun p : list Z => match p with [] => [] | _ => [p] end) q) <= length q)%nat).
      { clear. induction q as [|p q IH]; [cbn; lia|]. cbn [flat_map]. rewrite app_length. destruct p; cbn [length]; lia. }
      destruct p as [|c p]; [cbn [app length] in LL; specialize (B parts); lia|]. cbn [app length] in *. f_equal. apply IH. lia. }
    rewrite X in P. exact P.
  - intros P. assert (X : flat_map (fun p : list Z => match p with [] => [] | _ => [p] end) parts = parts).
    { clear -P strtod_nil. induction P as [|t s l ss P1 P2 IH]; [reflexivity|]. cbn [flat_map].
      destruct t as [|c t]; [unfold parse_alpha in P1; rewrite strtod_nil in P1; discriminate|]. cbn [app]. f_equal. exact IH. }
    rewrite X. apply parse_alphas_ok in P. rewrite P. apply parse_alphas_ok in P.
    assert (L : length ss = length parts) by (clear -P; induction P; cbn; congruence). rewrite L, Nat.eqb_refl. reflexivity.
Qed.
End Alpha.

(** ** rounding to float *)
Lemma b32_ok : forall n d, 0 <= n -> 0 < d -> ok (b32 n d).
Proof. intros. split; [now apply b32_nonneg|apply b32_den]. Qed.
Definition uf : Q := (1 # (2^24)%positive)%Q.
Lemma b32_q : forall n d, 0 <= n -> 0 < d ->
  (qv (b32 n d) <= (n # Z.to_pos d) * (1 + uf) /\ (n # Z.to_pos d) * (1 - uf) <= qv (b32 n d))%Q.
Proof.
  intros n d N D. pose proof (b32_err n d N D) as E. pose proof (b32_den n d) as Q. unfold qv.
  destruct (b32 n d) as (p, q). cbn [fst snd] in *.
  unfold Qle, Qmult, Qplus, Qminus, Qopp, uf. cbn [Qnum Qden]. rewrite ?Pos2Z.inj_mul, !Z2Pos.id by lia.
  change (2^24) with 16777216 in E. change (Z.pos (2^24)) with 16777216.
  change (Qnum (1 + (- (1) # 2 ^ 24))) with 16777215. change (QDen (1 + (- (1) # 2 ^ 24))) with 16777216.
  assert (N': 0 <= n * q) by nia. split; lia.
Qed.

(** ** reordering *)
Lemma leading_In : forall rn n m c, In (m, c) (leading n rn) -> exists i, m = n + Z.of_nat i /\ (i < length rn)%nat /\ nth i rn 0 = c /\ c <> 0.
Proof.
  induction rn as [|x rn IH]; intros n m c I; [destruct I|]. cbn [leading] in I. destruct (Z.eqb_spec x 0); [destruct I|]. destruct I as [I|I].
  - injection I as <- <-. exists 0%nat. cbn. lia.
  - apply IH in I. destruct I as (i & -> & L & E & NZ). exists (S i). cbn [nth length]. lia.
Qed.
Lemma leading_all : forall rn n i, (i < length rn)%nat -> (forall j, (j <= i)%nat -> nth j rn 0 <> 0) -> In (n + Z.of_nat i, nth i rn 0) (leading n rn).
Proof.
  induction rn as [|x rn IH]; intros n i L A; [cbn in L; lia|]. cbn [leading]. pose proof (A 0%nat ltac:(lia)) as X. cbn [nth] in X. replace (x =? 0) with false by lia.
  destruct i as [|i]; [left; cbn; f_equal; lia|]. right. cbn [nth]. replace (n + Z.of_nat (S i)) with (n + 1 + Z.of_nat i) by lia. apply IH; [cbn in L; lia|].
  intros j J. apply (A (S j)). lia.
Qed.
Lemma leading_len : forall rn n, (length (leading n rn) <= length rn)%nat /\ ((length (leading n rn) < length rn)%nat -> nth (length (leading n rn)) rn 0 = 0).
Proof.
  induction rn as [|x rn IH]; intros n; [cbn; lia|]. cbn [leading]. destruct (Z.eqb_spec x 0) as [->|]; [cbn; lia|]. destruct (IH (n + 1)) as (A & B). cbn [length nth]. split; [lia|]. intros L. apply B. lia.
Qed.

(** ** times *)
Lemma ms_near : forall nsec, 0 <= nsec < 1000000000 -> - 500121 <= milliseconds nsec * 1000000 - nsec <= 500121.
Proof.
  intros nsec B. unfold milliseconds. pose proof (b32_err nsec 1 ltac:(lia) ltac:(lia)) as E1. pose proof (b32_ok nsec 1 ltac:(lia) ltac:(lia)) as (O1 & O2).
  destruct (b32 nsec 1) as [p q]. cbn [fst snd] in *.
  pose proof (b32_err p (q * 1000000) ltac:(lia) ltac:(lia)) as E2. pose proof (b32_ok p (q * 1000000) ltac:(lia) ltac:(lia)) as (O3 & O4).
  destruct (b32 p (q * 1000000)) as [x y]. cbn [fst snd] in *.
  pose proof (rne_err x y O4) as E3. set (m := rne x y) in *. clearbody m. change (2^24) with 16777216 in *.
  (* p/q within nsec * 2^-24 of nsec: at most 60; x/y * 10^6 within p/q * 2^-24 of p/q *)
  assert (N : 0 <= nsec * q <= 1000000000 * q) by (split; [apply Z.mul_nonneg_nonneg; lia|apply Z.mul_le_mono_nonneg_r; lia]).
  rewrite Z.mul_1_r in E1.
  assert (F1 : - 60 * q <= p - nsec * q <= 60 * q) by lia.
  assert (P : p <= 1000000060 * q) by lia.
  assert (PY : 0 <= p * y <= 1000000060 * q * y) by (split; [apply Z.mul_nonneg_nonneg; lia|apply Z.mul_le_mono_nonneg_r; lia]).
  assert (QY : 0 < q * y) by (apply Z.mul_pos_pos; lia).
  replace (1000000060 * q * y) with (1000000060 * (q * y)) in PY by ring.
  assert (F2 : - (61 * (q * y)) <= x * (q * 1000000) - p * y <= 61 * (q * y)) by lia.
  assert (F1' : - 60 * q * y <= (p - nsec * q) * y <= 60 * q * y) by (split; apply Z.mul_le_mono_nonneg_r; lia).
  assert (F3 : - (121 * y) * q <= (x * 1000000 - nsec * y) * q <= (121 * y) * q) by lia.
  assert (F4 : - (121 * y) <= x * 1000000 - nsec * y <= 121 * y) by (split; apply (Zmult_le_reg_r _ _ q); lia).
  assert (F6 : - (500121 * y) <= (m * 1000000 - nsec) * y <= 500121 * y) by lia.
  assert (- 500121 <= m * 1000000 - nsec <= 500121) by (split; apply (Zmult_le_reg_r _ _ y); lia).
  lia.
Qed.
Lemma printed_value : forall ms, 0 <= ms < 1000 -> nanoseconds (printed ms) = ms * 1000000.
Proof.
  intros ms B. unfold printed, nanoseconds. replace (ms <? 1000) with true by lia. cbn [app decimals].
  change (100000000 / 10) with 10000000. change (10000000 / 10) with 1000000.
  pose proof (Z.div_mod ms 10 ltac:(lia)). pose proof (Z.mod_pos_bound ms 10 ltac:(lia)).
  pose proof (Z.div_mod (ms / 10) 10 ltac:(lia)). pose proof (Z.mod_pos_bound (ms / 10) 10 ltac:(lia)).
  rewrite Z.div_div in * by lia. change (10 * 10) with 100 in *.
  assert (0 <= ms / 100 < 10) by (split; [apply Z.div_pos; lia|apply Z.div_lt_upper_bound; lia]).
  rewrite (Z.mod_small (ms / 100) 10) by lia. lia.
Qed.

(** ** delays *)
Lemma dbl_near : forall x, 0 <= x < 2^64 -> - 2^11 <= dbl x - x <= 2^11.
Proof.
  intros x B. unfold dbl, d_int, d_trunc. pose proof (b64_err x 1 ltac:(lia) ltac:(lia)) as E. pose proof (b64_den x 1) as D. destruct (b64 x 1) as [p q]. cbn [fst snd] in *.
  rewrite !Z.mul_1_r in E. change (2^53) with 9007199254740992 in E. change (2^64) with 18446744073709551616 in B. change (2^11) with 2048.
  assert (F : - 2048 * q <= p - x * q <= 2048 * q) by nia. clear E.
  pose proof (Z.mul_div_le p q D). pose proof (Z.mul_succ_div_gt p q D). nia.
Qed.
Lemma dbl_exact : forall x, 0 <= x <= 2^53 -> dbl x = x.
Proof.
  intros x B. unfold dbl, d_int, d_trunc. pose proof (b64_int x B) as E. pose proof (b64_den x 1) as D. destruct (b64 x 1) as [p q]. cbn [fst snd] in *. subst p. now apply Z.div_mul; lia.
Qed.
Lemma fold_min : forall l i, (fold_left Z.min l i = i \/ In (fold_left Z.min l i) l) /\ fold_left Z.min l i <= i /\ forall x, In x l -> fold_left Z.min l i <= x.
Proof.
  induction l as [|y l IH]; intros i; cbn [fold_left In]; [split; [now left|]; split; [lia|tauto]|].
  destruct (IH (Z.min i y)) as (A & B & C). split; [|split; [lia|intros x [<-|I]; [lia|now apply C]]].
  destruct A as [A|A]; [|auto]. rewrite A. destruct (Z.min_spec i y) as [(_ & ->)|(_ & ->)]; auto.
Qed.
Lemma fold_max : forall l i, (fold_left Z.max l i = i \/ In (fold_left Z.max l i) l) /\ i <= fold_left Z.max l i /\ forall x, In x l -> x <= fold_left Z.max l i.
Proof.
  induction l as [|y l IH]; intros i; cbn [fold_left In]; [split; [now left|]; split; [lia|tauto]|].
  destruct (IH (Z.max i y)) as (A & B & C). split; [|split; [lia|intros x [<-|I]; [lia|now apply C]]].
  destruct A as [A|A]; [|auto]. rewrite A. destruct (Z.max_spec i y) as [(_ & ->)|(_ & ->)]; auto.
Qed.

(** ** the threshold of a percentile *)
Lemma hundred : ok (d_int 100) /\ (qv (d_int 100) == 100)%Q /\ 0 < fst (d_int 100).
Proof. split; [apply ok_int; lia|]. split; [now apply d_int_exact|vm_compute; reflexivity]. Qed.

Definition alpha (q : Q) : Z * Z := d_div (b32 (Qnum q) (Zpos (Qden q))) (d_int 100).
Lemma alpha_le_1 : forall q, (0 <= q <= 100)%Q -> d_lt (1, 1) (alpha q) = false.
Proof.
  intros [n d] (A & B). unfold Qle in A, B. cbn [Qnum Qden] in A, B. unfold alpha, d_div. cbn [Qnum Qden].
  pose proof (b32_le_int n (Zpos d) 100 ltac:(lia) ltac:(lia) ltac:(lia) ltac:(lia)) as L. pose proof (b32_ok n (Zpos d) ltac:(lia) ltac:(lia)) as (O1 & O2).
  destruct (b32 n (Zpos d)) as [p r]. cbn [fst snd] in *.
  change (d_int 100) with (100 * 2^46, 2^46). cbn [fst snd].
  pose proof (b64_le_int (p * 2^46) (r * (100 * 2^46)) 1 ltac:(lia) ltac:(lia) ltac:(lia) ltac:(lia)) as M. destruct (b64 _ _) as [x y]. unfold d_lt. cbn [fst snd]. lia.
Qed.

Lemma qv_den : forall x, ok x -> (qv x * inject_Z (snd x) == inject_Z (fst x))%Q.
Proof. intros (p, q) (A & B). unfold qv, Qeq, Qmult, inject_Z. cbn [fst snd Qnum Qden] in *. rewrite Pos2Z.inj_mul, Z2Pos.id by lia. ring. Qed.

(** the threshold is within a relative error of 2^-23 *)
Lemma threshold : forall q sent, (0 <= q <= 100)%Q -> 0 <= sent < 2^32 ->
  ok (d_mul (alpha q) (d_int sent)) /\
  (qv (d_mul (alpha q) (d_int sent)) * 100 <= q * inject_Z sent * (1 + (1 # 8388608)) /\ q * inject_Z sent * (1 - (1 # 8388608)) <= qv (d_mul (alpha q) (d_int sent)) * 100)%Q.
Proof.
  intros [n d] sent (A & B) S. assert (N : 0 <= n) by (unfold Qle in A; cbn [Qnum Qden] in A; lia).
  pose proof (b32_ok n (Zpos d) N ltac:(lia)) as O1. pose proof (b32_q n (Zpos d) N ltac:(lia)) as (F1 & F2). cbn [Z.to_pos] in F1, F2.
  destruct hundred as (OH & EH & PH). pose proof (div_q _ _ O1 OH PH) as (D1 & D2). pose proof (ok_div _ _ O1 OH PH) as O2.
  pose proof (ok_int sent ltac:(lia)) as O3. pose proof (mul_q _ _ O2 O3) as (M1 & M2). pose proof (ok_mul _ _ O2 O3) as O4.
  rewrite (d_int_exact sent) in M1, M2 by lia. rewrite EH in D1, D2. unfold alpha. cbn [Qnum Qden].
  split; [exact O4|]. generalize dependent (qv (d_mul (d_div (b32 n (Zpos d)) (d_int 100)) (d_int sent))). intros t M1 M2.
  generalize dependent (qv (d_div (b32 n (Zpos d)) (d_int 100))). intros a D1 D2 M1 M2. pose proof (qv_nonneg _ O1) as X0. generalize dependent (qv (b32 n (Zpos d))). intros x F1 F2 D1 D2 X0.
  assert (S0 : (0 <= inject_Z sent)%Q) by (unfold Qle, inject_Z; cbn; lia). generalize dependent (inject_Z sent). intros s M1 M2 S0. set (q := (n # d)%Q) in *.
  unfold uu, uf in *. change (2^53)%positive with 9007199254740992%positive in *. change (2^24)%positive with 16777216%positive in *.
  clear - A X0 F1 F2 D1 D2 M1 M2 S0.
  assert (U1 : (a * 100 <= q * (1 + (1 # 16777216)) * (1 + (1 # 9007199254740992)))%Q) by lra.
  assert (U2 : (q * (1 - (1 # 16777216)) * (1 - (1 # 9007199254740992)) <= a * 100)%Q) by lra.
  assert (U3 : (a * 100 * s <= q * (1 + (1 # 16777216)) * (1 + (1 # 9007199254740992)) * s)%Q) by (apply Qmult_le_compat_r; assumption).
  assert (U4 : (q * (1 - (1 # 16777216)) * (1 - (1 # 9007199254740992)) * s <= a * 100 * s)%Q) by (apply Qmult_le_compat_r; assumption).
  assert (QS : (0 <= q * s)%Q) by (apply Qmult_le_0_compat; assumption).
  set (w := (q * s)%Q) in *. assert (W1 : (q * (1 + (1 # 16777216)) * (1 + (1 # 9007199254740992)) * s == w * ((1 + (1 # 16777216)) * (1 + (1 # 9007199254740992))))%Q) by (unfold w; ring).
  assert (W2 : (q * (1 - (1 # 16777216)) * (1 - (1 # 9007199254740992)) * s == w * ((1 - (1 # 16777216)) * (1 - (1 # 9007199254740992))))%Q) by (unfold w; ring).
  rewrite W1 in U3. rewrite W2 in U4. set (v := (a * s)%Q) in *. assert (V : (a * 100 * s == v * 100)%Q) by (unfold v; ring). rewrite V in U3, U4. clearbody w v. clear W1 W2 V. split; lra.
Qed.

Lemma reported_near : forall q sent s, (0 <= q <= 100)%Q -> 0 <= sent < 2^32 -> StronglySorted by_bucket s -> Forall (fun y => 0 < snd y) s ->
  match reported (Number q) sent s with
  | Aborted => False
  | Bucket b => In b (map fst s) /\ (q * inject_Z sent * (1 - (1 # 8388608)) <= inject_Z (up_to b s) * 100)%Q /\
      forall b', In b' (map fst s) -> b' < b -> (inject_Z (up_to b' s) * 100 < q * inject_Z sent * (1 + (1 # 8388608)))%Q
  | NotAvailable => forall b', In b' (map fst s) -> (inject_Z (up_to b' s) * 100 < q * inject_Z sent * (1 + (1 # 8388608)))%Q
  end.
Proof.
  intros q sent s Q S SO P. unfold reported. fold (alpha q). rewrite (alpha_le_1 q Q). destruct (threshold q sent Q S) as (O & T1 & T2).
  pose proof (qv_den _ O) as E. destruct O as (O1 & O2). destruct (d_mul (alpha q) (d_int sent)) as [p d]. cbn [fst snd] in *.
  pose proof (percentile_spec p d s 0 O2 SO P) as X.
  assert (D0 : (0 < inject_Z d)%Q) by (unfold Qlt, inject_Z; cbn; lia).
  assert (LE : forall k, p <= k * d -> (qv (p, d) <= inject_Z k)%Q).
  { intros k L. unfold qv, Qle, inject_Z. cbn [fst snd Qnum Qden]. rewrite Z2Pos.id by lia. lia. }
  assert (LT : forall k, k * d < p -> (inject_Z k < qv (p, d))%Q).
  { intros k L. unfold qv, Qlt, inject_Z. cbn [fst snd Qnum Qden]. rewrite Z2Pos.id by lia. lia. }
  assert (U : forall b, up_to b s = below b s) by reflexivity.
  destruct (percentile p d 0 s) as [b|].
  - destruct X as (X1 & X2 & X3). split; [exact X1|]. split.
    + apply LE in X2. rewrite U. cbn [Z.add] in X2. apply Qle_trans with (qv (p, d) * 100)%Q; [exact T2|]. apply Qmult_le_compat_r; [exact X2|lra].
    + intros b' I L. specialize (X3 b' I L). apply LT in X3. rewrite U. cbn [Z.add] in X3. apply Qlt_le_trans with (qv (p, d) * 100)%Q; [|exact T1]. apply Qmult_lt_compat_r; [lra|exact X3].
  - intros b' I. specialize (X b' I). apply LT in X. rewrite U. cbn [Z.add] in X. apply Qlt_le_trans with (qv (p, d) * 100)%Q; [|exact T1]. apply Qmult_lt_compat_r; [lra|exact X].
Qed.
