(** Proofs about [Time_Model]. *)
From Coq Require Import ZArith List Bool Lia ZifyBool ZifyNat.
From Verif Require Import Base BaseLemmas Arith_Model Arith_Proofs Time_Model.
Import ListNotations.
Open Scope Z_scope.
Ltac Zify.zify_post_hook ::= Z.div_mod_to_equations.

Lemma floor_split : forall s n D, 0 < D -> (s * D + n) * M32 / D = s * M32 + n * M32 / D.
Proof.
  intros. replace ((s * D + n) * M32) with (n * M32 + (s * M32) * D) by ring.
  rewrite Z.div_add by lia. lia.
Qed.

Lemma timespec_floor : forall s n, 0 <= s < M32 -> 0 <= n < 1000000000 ->
  OWPTimespecToNum64 (s, n) = (s * 1000000000 + n) * M32 / 1000000000.
Proof.
  intros. rewrite TimespecToNum64_eq, floor_split; unfold BILLION, is_u32; lia || auto.
Qed.

Lemma timeval_floor : forall s n, 0 <= s < M32 -> 0 <= n < 1000000 ->
  OWPTimevalToNum64 (s, n) = (s * 1000000 + n) * M32 / 1000000.
Proof.
  intros. rewrite TimevalToNum64_eq, floor_split; unfold MILLION, is_u32; lia || auto.
Qed.

Lemma num64_timespec_floor : forall x, 0 <= x < M64 ->
  exists s n, OWPNum64ToTimespec x = (s, n) /\ 0 <= s < M32 /\ 0 <= n < 1000000000 /\
    s * 1000000000 + n = x * 1000000000 / M32.
Proof.
  intros. rewrite Num64ToTimespec_eq by auto. unfold BILLION. eexists _, _.
  split; [reflexivity|]. lia.
Qed.

Lemma num64_timeval_floor : forall x, 0 <= x < M64 ->
  exists s n, OWPNum64ToTimeval x = (s, n) /\ 0 <= s < M32 /\ 0 <= n < 1000000 /\
    s * 1000000 + n = x * 1000000 / M32.
Proof.
  intros. rewrite Num64ToTimeval_eq by auto. unfold MILLION. eexists _, _.
  split; [reflexivity|]. lia.
Qed.

Lemma timespec_roundtrip : forall s n, 0 <= s < M32 -> 0 <= n < 1000000000 ->
  exists s' n', OWPNum64ToTimespec (OWPTimespecToNum64 (s, n)) = (s', n') /\
    0 <= n' < 1000000000 /\
    s * 1000000000 + n - 1 <= s' * 1000000000 + n' <= s * 1000000000 + n.
Proof.
  intros s n Hs Hn. rewrite timespec_floor by auto.
  destruct (num64_timespec_floor ((s * 1000000000 + n) * M32 / 1000000000)) as (s' & n' & E & ? & ? & E2).
  { lia. }
  exists s', n'. rewrite E. repeat split; lia.
Qed.

Lemma timeval_roundtrip : forall s n, 0 <= s < M32 -> 0 <= n < 1000000 ->
  exists s' n', OWPNum64ToTimeval (OWPTimevalToNum64 (s, n)) = (s', n') /\
    0 <= n' < 1000000 /\
    s * 1000000 + n - 1 <= s' * 1000000 + n' <= s * 1000000 + n.
Proof.
  intros s n Hs Hn. rewrite timeval_floor by auto.
  destruct (num64_timeval_floor ((s * 1000000 + n) * M32 / 1000000)) as (s' & n' & E & ? & ? & E2).
  { lia. }
  exists s', n'. rewrite E. repeat split; lia.
Qed.

Lemma num64_timespec_back : forall x, 0 <= x < M64 ->
  x - 5 <= OWPTimespecToNum64 (OWPNum64ToTimespec x) <= x.
Proof.
  intros x Hx. destruct (num64_timespec_floor x Hx) as (s & n & E & ? & ? & E2).
  rewrite E, timespec_floor by auto. lia.
Qed.

Lemma num64_timeval_back : forall x, 0 <= x < M64 ->
  x - 4295 <= OWPTimevalToNum64 (OWPNum64ToTimeval x) <= x.
Proof.
  intros x Hx. destruct (num64_timeval_floor x Hx) as (s & n & E & ? & ? & E2).
  rewrite E, timeval_floor by auto. lia.
Qed.

(** ** wire form *)
Lemma encode_timestamp_be8 : forall t, is_u64 (owptime t) ->
  encode_timestamp t = be_enc 8 (owptime t).
Proof.
  intros t H. unfold encode_timestamp. generalize dependent (owptime t). intros x H. red in H.
  change (be_enc 8 x) with
    [(x / 256^7) mod 256; (x / 256^6) mod 256; (x / 256^5) mod 256; (x / 256^4) mod 256;
     (x / 256^3) mod 256; (x / 256^2) mod 256; (x / 256^1) mod 256; (x / 256^0) mod 256].
  change (be_enc 4 ?y) with
    [(y / 256^3) mod 256; (y / 256^2) mod 256; (y / 256^1) mod 256; (y / 256^0) mod 256].
  change (256^7) with (M32 * 256^3). change (256^6) with (M32 * 256^2).
  change (256^5) with (M32 * 256^1). change (256^4) with (M32 * 256^0).
  rewrite (Z.mod_small (x / M32)) by lia.
  rewrite !Z.div_div by (cbn; lia). cbn [app]. 
  change (256^3) with 16777216. change (256^2) with 65536. change (256^1) with 256. change (256^0) with 1.
  repeat (f_equal; try lia).
Qed.

Lemma decode_timestamp_be8 : forall t buf, length buf = 8%nat -> octets buf ->
  owptime (decode_timestamp t buf) = be_dec buf.
Proof.
  intros t buf L H. unfold decode_timestamp. cbn [owptime].
  pose proof (sub_octets 0 4 buf H) as H0. pose proof (sub_octets 4 4 buf H) as H4.
  pose proof (be_dec_bound _ H0) as B0. pose proof (be_dec_bound _ H4) as B4.
  rewrite sub_length in B0, B4 by lia. change (256 ^ Z.of_nat 4) with M32 in *.
  unfold u64. rewrite Z.mod_small by lia. rewrite lor_add by lia.
  do 8 (destruct buf as [|? buf]; try discriminate L). destruct buf; try discriminate L.
  unfold sub, be_dec. cbn [firstn skipn fold_left]. lia.
Qed.

Lemma timestamp_wire : forall t t0, is_u64 (owptime t) ->
  owptime (decode_timestamp t0 (encode_timestamp t)) = owptime t.
Proof.
  intros. rewrite encode_timestamp_be8 by auto.
  rewrite decode_timestamp_be8; auto using be_enc_length, be_enc_octets.
  apply be_dec_enc. exact H.
Qed.

Lemma timestamp_wire_onto : forall t0 buf, length buf = 8%nat -> octets buf ->
  encode_timestamp (decode_timestamp t0 buf) = buf.
Proof.
  intros. rewrite encode_timestamp_be8.
  - rewrite decode_timestamp_be8 by auto. rewrite <- H at 1. now apply be_enc_dec.
  - rewrite decode_timestamp_be8 by auto. pose proof (be_dec_bound _ H0) as B. rewrite H in B. exact B.
Qed.

Lemma encode_timestamp_length : forall t, length (encode_timestamp t) = 8%nat.
Proof. reflexivity. Qed.

Lemma encode_timestamp_octets : forall t, octets (encode_timestamp t).
Proof. intros. unfold encode_timestamp. apply Forall_app. split; apply be_enc_octets. Qed.

(** ** epoch *)
Lemma JAN_eq : OWPULongToNum64 JAN_1970 = JAN_1970 * M32.
Proof. reflexivity. Qed.

Lemma owptime_ToTimestamp : forall t tv e l,
  owptime (OWPTimespecToTimestamp t tv e l) = OWPNum64Add (OWPTimespecToNum64 tv) (OWPULongToNum64 JAN_1970).
Proof.
  intros. unfold OWPTimespecToTimestamp. destruct e as [e|]; auto.
  destruct (e =? 0); auto. destruct l as [l|]; [destruct (e =? l)|]; cbn [negb];
  try destruct (err_to_scale_mult e); auto.
Qed.

Lemma epoch_value : forall t s n e l, 0 <= s < M32 -> 0 <= n < 1000000000 ->
  owptime (OWPTimespecToTimestamp t (s, n) e l)
  = (s + 2208988800) mod M32 * M32 + n * M32 / 1000000000.
Proof.
  intros. rewrite owptime_ToTimestamp, timespec_floor, JAN_eq by auto.
  rewrite floor_split by lia. unfold OWPNum64Add, u64, JAN_1970. lia.
Qed.

Lemma epoch_roundtrip : forall t s n e l, 0 <= s < M32 -> 0 <= n < 1000000000 ->
  exists s' n', OWPTimestampToTimespec (OWPTimespecToTimestamp t (s, n) e l) = (s', n') /\
    0 <= n' < 1000000000 /\
    s * 1000000000 + n - 1 <= s' * 1000000000 + n' <= s * 1000000000 + n.
Proof.
  intros t s n e l Hs Hn. unfold OWPTimestampToTimespec. rewrite owptime_ToTimestamp.
  replace (OWPNum64Sub (OWPNum64Add (OWPTimespecToNum64 (s, n)) (OWPULongToNum64 JAN_1970))
       (OWPULongToNum64 JAN_1970)) with (OWPTimespecToNum64 (s, n)).
  - apply timespec_roundtrip; auto.
  - rewrite timespec_floor by auto. rewrite JAN_eq. unfold OWPNum64Sub, OWPNum64Add, u64, JAN_1970.
    rewrite Zminus_mod_idemp_l. rewrite Z.add_simpl_r. rewrite Z.mod_small; lia.
Qed.

Lemma epoch_roundtrip_timeval : forall t s n, 0 <= s < M32 -> 0 <= n < 1000000 ->
  exists s' n', OWPTimestampToTimeval (OWPTimevalToTimestamp t (s, n)) = (s', n') /\
    0 <= n' < 1000000 /\
    s * 1000000 + n - 1 <= s' * 1000000 + n' <= s * 1000000 + n.
Proof.
  intros t s n Hs Hn. unfold OWPTimestampToTimeval, OWPTimevalToTimestamp. cbn [owptime].
  replace (OWPNum64Sub (OWPNum64Add (OWPTimevalToNum64 (s, n)) (OWPULongToNum64 JAN_1970))
       (OWPULongToNum64 JAN_1970)) with (OWPTimevalToNum64 (s, n)).
  - apply timeval_roundtrip; auto.
  - rewrite timeval_floor by auto. rewrite JAN_eq. unfold OWPNum64Sub, OWPNum64Add, u64, JAN_1970.
    rewrite Zminus_mod_idemp_l. rewrite Z.add_simpl_r. rewrite Z.mod_small; lia.
Qed.

Lemma epoch_back : forall t0 t e l, is_u64 (owptime t) ->
  let x := owptime (OWPTimespecToTimestamp t0 (OWPTimestampToTimespec t) e l) in
  (owptime t - x) mod M64 <= 5.
Proof.
  intros t0 t e l H. cbn zeta. rewrite owptime_ToTimestamp. unfold OWPTimestampToTimespec.
  set (y := OWPNum64Sub (owptime t) (OWPULongToNum64 JAN_1970)).
  assert (Hy : 0 <= y < M64) by (subst y; unfold OWPNum64Sub, u64; lia).
  pose proof (num64_timespec_back y Hy). set (z := OWPTimespecToNum64 (OWPNum64ToTimespec y)) in *.
  assert (Ey : y = (owptime t - JAN_1970 * M32) mod M64) by (subst y; now rewrite JAN_eq).
  rewrite JAN_eq. unfold OWPNum64Add, u64. unfold JAN_1970 in *. clearbody y z. red in H. lia.
Qed.

(** ** error estimates *)
Lemma err_loop_inv : forall fuel E e sc e' sc', 0 <= e -> 0 <= sc -> sc + Z.of_nat fuel < 256 ->
  e < 255 * 2 ^ (Z.of_nat fuel) ->
  e * 2 ^ sc <= E < (e + 1) * 2 ^ sc -> (sc = 0 \/ 127 <= e) ->
  err_loop fuel e sc = (e', sc') ->
  0 <= e' < 255 /\ sc <= sc' <= sc + Z.of_nat fuel /\ e' * 2 ^ sc' <= E < (e' + 1) * 2 ^ sc' /\
  (sc' = 0 \/ 127 <= e').
Proof.
  induction fuel; intros E e sc e' sc' He Hs Hf Hb HE Ht Heq; cbn [err_loop] in Heq.
  - inversion Heq; subst. change (2 ^ Z.of_nat 0) with 1 in Hb. lia.
  - destruct (Z.leb_spec 255 e).
    + unfold u8 in Heq. rewrite Z.mod_small in Heq by lia.
      rewrite Nat2Z.inj_succ, Z.pow_succ_r in Hb by lia.
      assert (0 < 2 ^ Z.of_nat fuel) by (apply Z.pow_pos_nonneg; lia).
      assert (P: 2 ^ (sc + 1) = 2 * 2 ^ sc) by (rewrite Z.pow_add_r by lia; change (2^1) with 2; ring).
      assert (0 < 2 ^ sc) by (apply Z.pow_pos_nonneg; lia).
      apply (IHfuel E) in Heq; try lia.
      rewrite P. assert (e = 2 * (e / 2) + e mod 2 /\ 0 <= e mod 2 < 2) as [? ?] by lia.
      set (h := e / 2) in *. set (r := e mod 2) in *. clearbody h r. nia.
    + inversion Heq; subst. repeat split; try lia.
Qed.

Lemma err_estimate_sound : forall e, 0 < e < M32 ->
  exists sc mu, err_to_scale_mult e = (sc, mu) /\ 1 <= mu <= 255 /\ 0 <= sc <= 63 /\
    e * M32 < mu * 2 ^ sc * 1000000 /\ (mu - 1) * 2 ^ sc * 1000000 <= e * M32 /\
    128 <= mu /\ mu * 2 ^ sc < M64.
Proof.
  intros e He. unfold err_to_scale_mult. rewrite UsecToNum64_eq by (red; lia).
  unfold u64 at 1, MILLION. rewrite Z.mod_small by lia.
  destruct (err_loop 64 (e * M32 / 1000000) 0) as [e' sc'] eqn:Hl.
  assert (H0 : 4294 <= e * M32 / 1000000 < 2^45) by lia.
  assert (Hb := Hl).
  set (E := e * M32 / 1000000) in *.
  assert (HE : E * 1000000 <= e * M32 < (E + 1) * 1000000) by (subst E; lia).
  clearbody E.
  apply (err_loop_inv _ E) in Hl; try lia.
  exists sc', (Z.land 255 (u64 (e' + 1))). split; auto.
  destruct Hl as (A & B & C & D).
  unfold u64. rewrite Z.mod_small by lia. rewrite Z.land_comm.
  change 255 with (Z.ones 8). rewrite Z.land_ones by lia. change (2^8) with 256.
  rewrite Z.mod_small by lia.
  assert (Hp : 0 < 2 ^ sc') by (apply Z.pow_pos_nonneg; lia).
  assert (sc' <> 0) by (intro; subst sc'; change (2^0) with 1 in *; lia).
  assert (sc' <= 45).
  { destruct (Z.le_gt_cases sc' 45); auto. exfalso.
    assert (2 ^ 46 <= 2 ^ sc') by (apply Z.pow_le_mono_r; lia). 
    change (2^46) with 70368744177664 in *. change (2^45) with 35184372088832 in *. nia. }
  assert (2 ^ sc' <= 2 ^ 45) by (apply Z.pow_le_mono_r; lia).
  change (2^45) with 35184372088832 in *.
  set (p := 2 ^ sc') in *. clearbody p.
  assert (Eq : (e' + 1) * p = e' * p + p) by ring. rewrite Eq in *.
  replace (e' + 1 - 1) with e' by ring.
  set (q := e' * p) in *. clearbody q.
  repeat split; try (change (Z.ones 8) with 255); lia.
Qed.

Lemma shl_loop_eq : forall n x, 0 <= x -> x * 2 ^ Z.of_nat n < M64 -> shl_loop n x = x * 2 ^ Z.of_nat n.
Proof.
  induction n; intros x Hx Hb; cbn [shl_loop].
  - change (2 ^ Z.of_nat 0) with 1. lia.
  - rewrite Nat2Z.inj_succ, Z.pow_succ_r in * by lia.
    assert (1 <= 2 ^ Z.of_nat n) by (change 1 with (2^0); apply Z.pow_le_mono_r; lia).
    unfold u64. rewrite (Z.mod_small (x*2)) by nia. rewrite IHn by nia. ring.
Qed.

Lemma err_estimate_value : forall t tv e, 0 < e < M32 ->
  let ts := OWPTimespecToTimestamp t tv (Some e) None in
  e * M32 < OWPGetTimeStampError_num ts * 1000000 /\
  OWPGetTimeStampError_num ts = multiplier ts * 2 ^ scale ts /\
  1 <= multiplier ts <= 255 /\ 0 <= scale ts <= 63 /\
  (multiplier ts - 1) * 2 ^ scale ts * 1000000 <= e * M32 /\
  127 * (OWPGetTimeStampError_num ts * 1000000) <= 128 * (e * M32) /\ sync ts = sync t.
Proof.
  intros t tv e He. cbn zeta. unfold OWPTimespecToTimestamp.
  destruct (Z.eqb_spec e 0); [lia|].
  destruct (err_estimate_sound e He) as (sc & mu & E & A & B & C & D & F & G).
  rewrite E. unfold OWPGetTimeStampError_num. cbn [multiplier scale sync].
  assert (L1 : Z.land sc 63 = sc).
  { change 63 with (Z.ones 6). rewrite Z.land_ones by lia. apply Z.mod_small. change (2^6) with 64. lia. }
  assert (L2 : Z.land mu 255 = mu).
  { change 255 with (Z.ones 8). rewrite Z.land_ones by lia. apply Z.mod_small. change (2^8) with 256. lia. }
  rewrite L1, L2. rewrite shl_loop_eq by (rewrite ?Z2Nat.id; lia).
  rewrite Z2Nat.id by lia. 
  assert (0 < 2 ^ sc) by (apply Z.pow_pos_nonneg; lia).
  repeat split; try lia. nia.
Qed.

Lemma land63 : forall x, 0 <= x < 64 -> Z.land x 63 = x.
Proof.
  intros. change 63 with (Z.ones 6). rewrite Z.land_ones by lia. apply Z.mod_small.
  change (2^6) with 64. lia.
Qed.

Lemma lor128_small : forall x, 0 <= x < 64 -> Z.lor x 128 = x + 128.
Proof.
  intros. rewrite <- Z.lxor_lor; [symmetry; apply Z.add_nocarry_lxor|];
  apply Z.bits_inj'; intros n Hn; rewrite Z.land_spec, Z.bits_0;
  (destruct (Z.lt_ge_cases n 6);
   [ change 128 with (2^7); rewrite Z.pow2_bits_false by lia; apply andb_false_r
   | rewrite <- (Z.mod_small x (2^6)) by (change (2^6) with 64; lia);
     rewrite Z.mod_pow2_bits_high by lia; auto ]).
Qed.

Lemma land128_small : forall x, 0 <= x < 64 -> Z.land x 128 = 0.
Proof.
  intros; apply Z.bits_inj'; intros n Hn; rewrite Z.land_spec, Z.bits_0;
  (destruct (Z.lt_ge_cases n 6);
   [ change 128 with (2^7); rewrite Z.pow2_bits_false by lia; apply andb_false_r
   | rewrite <- (Z.mod_small x (2^6)) by (change (2^6) with 64; lia);
     rewrite Z.mod_pow2_bits_high by lia; auto ]).
Qed.

Lemma land_lor128 : forall x, 0 <= x < 64 ->
  Z.land (Z.lor x 128) 63 = x /\ Z.land (Z.lor x 128) 128 = 128.
Proof.
  intros. split.
  - rewrite Z.land_comm, Z.land_lor_distr_r. rewrite Z.land_comm, land63 by lia.
    change (Z.land 63 128) with 0. apply Z.lor_0_r.
  - rewrite Z.land_comm, Z.land_lor_distr_r, Z.land_comm, land128_small by lia.
    change (Z.land 128 128) with 128. reflexivity.
Qed.

(** value of the two octets, in plain arithmetic *)
Lemma encode_errest_value : forall t, (sync t = 0 \/ sync t = 1) -> 1 <= multiplier t <= 255 ->
  0 <= scale t < 64 ->
  encode_errest t = Some [128 * sync t + scale t; multiplier t].
Proof.
  intros t Hs Hm Hc. unfold encode_errest.
  destruct (Z.eqb_spec (multiplier t) 0); [lia|].
  rewrite land63 by lia.
  destruct Hs as [Hs|Hs]; rewrite Hs.
  - reflexivity.
  - change (1 =? 0) with false. rewrite lor128_small by lia. do 2 f_equal. lia.
Qed.

Lemma decode_errest_encode : forall t t0 buf, (sync t = 0 \/ sync t = 1) -> 0 <= scale t < 64 ->
  encode_errest t = Some buf ->
  decode_errest t0 buf =
    ({| owptime := owptime t0; sync := sync t; multiplier := multiplier t; scale := scale t |},
     buf, true) /\ length buf = 2%nat.
Proof.
  intros t t0 buf Hs Hc H. unfold encode_errest in H.
  destruct (Z.eqb_spec (multiplier t) 0); [discriminate|]. inversion H; subst buf; clear H.
  rewrite land63 by lia. unfold decode_errest, byte. cbn [nth].
  destruct (Z.eqb_spec (multiplier t) 0); [lia|]. cbn [negb]. split; auto.
  destruct Hs as [Hs|Hs]; rewrite Hs.
  - change (0 =? 0) with true. rewrite land128_small, land63 by lia. reflexivity.
  - change (1 =? 0) with false. destruct (land_lor128 (scale t)) as [E1 E2]; auto.
    rewrite E1, E2. reflexivity.
Qed.

Lemma encode_errest_octets : forall t buf, is_u8 (multiplier t) -> encode_errest t = Some buf ->
  octets buf /\ length buf = 2%nat.
Proof.
  intros t buf Hm H. unfold encode_errest in H. destruct (_ =? 0); [discriminate|]. inversion H; subst.
  split; auto. unfold octets.
  assert (B: 0 <= Z.land (scale t) 63 < 64).
  { change 63 with (Z.ones 6). rewrite Z.land_ones by lia. change (2^6) with 64. lia. }
  constructor; [|constructor; auto]. red. destruct (sync t =? 0); try lia.
  rewrite lor128_small by lia. lia.
Qed.

(** ** cached error estimates over a history *)
Lemma stamp_history_cache_gen : forall h st tv e sy ts l,
  (snd st = 0 \/ (scale (fst st), multiplier (fst st)) = err_to_scale_mult (snd st)) ->
  fold_left stamp_step (h ++ [(tv, e, sy)]) st = (ts, l) ->
  l = e /\ exists prev, ts = OWPTimespecToTimestamp prev tv (Some e) None /\ sync prev = sy.
Proof.
  induction h as [|[[tv1 e1] sy1] h IH]; intros st tv e sy ts l Hinv H.
  - cbn [app fold_left stamp_step] in H. destruct st as [t0 l0]. unfold stamp_step in H.
    cbn [fst snd] in Hinv.
    inversion H; subst; clear H. split; auto.
    exists {| owptime := owptime t0; sync := sy; multiplier := multiplier t0; scale := scale t0 |}.
    split; auto. unfold OWPTimespecToTimestamp. destruct (Z.eqb_spec l 0); auto.
    destruct (Z.eqb_spec l l0); cbn [negb]; auto. subst l0.
    destruct Hinv as [|Hinv]; [lia|]. rewrite <- Hinv. reflexivity.
  - cbn [app fold_left] in H. apply IH in H; auto. clear IH H.
    destruct st as [t0 l0]. cbn [stamp_step fst snd] in *.
    destruct (Z.eqb_spec e1 0); auto. right.
    unfold OWPTimespecToTimestamp. destruct (Z.eqb_spec e1 0); [lia|].
    destruct (Z.eqb_spec e1 l0); cbn [negb].
    + subst l0. destruct Hinv as [|Hinv]; [lia|]. cbn [scale multiplier]. auto.
    + destruct (err_to_scale_mult e1). reflexivity.
Qed.

Lemma stamp_history_cache : forall h t0 tv e sy ts l,
  fold_left stamp_step (h ++ [(tv, e, sy)]) (t0, 0) = (ts, l) ->
  exists prev, ts = OWPTimespecToTimestamp prev tv (Some e) None /\ sync prev = sy.
Proof.
  intros. apply stamp_history_cache_gen in H as [_ H]; auto.
Qed.

(** ** clock reading *)
Lemma offset_neg_loop_ok : forall fuel sec off, 0 <= off \/ - off / BILLION + 1 < Z.of_nat fuel ->
  (0 < fuel)%nat ->
  exists s o, offset_neg_loop fuel sec off = Some (s, o) /\ 0 <= o /\
    s * BILLION + o = sec * BILLION + off.
Proof.
  induction fuel; intros sec off H Hf; [lia|]. cbn [offset_neg_loop].
  destruct (Z.ltb_spec off 0).
  - unfold BILLION in *. destruct H; [lia|].
    destruct (IHfuel (sec - 1) (off + 1000000000)) as (s & o & E & A & B); try lia.
    exists s, o. split; auto. lia.
  - eexists _, _; split; [reflexivity|]. split; auto.
Qed.

Lemma offset_pos_loop_ok : forall fuel sec off, 0 <= off -> off / BILLION < Z.of_nat fuel ->
  exists s o, offset_pos_loop fuel sec off = Some (s, o) /\ 0 <= o < BILLION /\
    s * BILLION + o = sec * BILLION + off.
Proof.
  induction fuel; intros sec off H Hf; [unfold BILLION in *; lia|]. cbn [offset_pos_loop].
  destruct (Z.leb_spec BILLION off).
  - unfold BILLION in *.
    destruct (IHfuel (sec + 1) (off - 1000000000)) as (s & o & E & A & B); try lia.
    exists s, o. split; auto. lia.
  - eexists _, _; split; [reflexivity|]. split; auto.
Qed.

Lemma offset_neg_bound : forall fuel sec off s o, 
  offset_neg_loop fuel sec off = Some (s, o) -> o <= Z.max off BILLION.
Proof.
  induction fuel; intros sec off s o H; cbn [offset_neg_loop] in H; [discriminate|].
  destruct (Z.ltb_spec off 0).
  - apply IHfuel in H. unfold BILLION in *. lia.
  - inversion H; lia.
Qed.

Lemma GetTimespec_ok : forall c fuel, 0 <= ck_usec c < 1000000 ->
  Z.abs (ck_offset c) / 1000000000 + 2 < Z.of_nat fuel ->
  exists s n e sy, OWPGetTimespec fuel c = Some ((s, n), e, sy) /\ 0 <= n < 1000000000 /\
    s * 1000000000 + n = ck_sec c * 1000000000 + ck_usec c * 1000
                         + (if ck_unsync c then 0 else ck_offset c) /\
    sy = (if ck_unsync c then 0 else 1) /\ (sy = 1 -> 1 <= e < M32) /\ (sy = 0 -> e = 0).
Proof.
  intros c fuel Hu Hf. unfold OWPGetTimespec. destruct (ck_unsync c).
  - eexists _, _, _, _. split; [reflexivity|]. lia.
  - destruct (offset_neg_loop_ok fuel (ck_sec c) (ck_offset c)) as (s1 & o1 & E1 & A1 & B1).
    { unfold BILLION in *. lia. } { lia. }
    pose proof (offset_neg_bound _ _ _ _ _ E1).
    rewrite E1.
    destruct (offset_pos_loop_ok fuel s1 o1) as (s2 & o2 & E2 & A2 & B2); auto.
    { unfold BILLION in *. lia. }
    rewrite E2. unfold BILLION in *.
    assert (H1 : forall (x y : Z) (b : bool), b = true \/ b = false) by (intros x y []; auto).
    destruct (Z.leb_spec 1000000000 (ck_usec c * 1000 + o2)).
    + eexists _, _, _, _. split; [reflexivity|]. repeat split; try lia.
      unfold u32. destruct (Z.eqb_spec (ck_esterr c mod M32) 0); lia.
      unfold u32. destruct (Z.eqb_spec (ck_esterr c mod M32) 0); lia.
    + eexists _, _, _, _. split; [reflexivity|]. repeat split; try lia.
      unfold u32. destruct (Z.eqb_spec (ck_esterr c mod M32) 0); lia.
      unfold u32. destruct (Z.eqb_spec (ck_esterr c mod M32) 0); lia.
Qed.
