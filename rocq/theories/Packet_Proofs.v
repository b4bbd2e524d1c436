From Coq Require Import ZArith List Bool Lia ZifyBool ZifyNat.
From Verif Require Import Base BaseLemmas Arith_Model Arith_Proofs Time_Model Time_Proofs Wire_Model Wire_Spec Wire_Proofs
  Control_Model Control_Spec Control_Proofs File_Proofs Packet_Model.
Import ListNotations.
Open Scope Z_scope.
Ltac Zify.zify_post_hook ::= Z.div_mod_to_equations.

Lemma stamp_octets_spec : forall ts, exists eb, stamp_octets ts = (encode_timestamp ts, eb) /\ length eb = 2%nat /\
  forall t0, owptime t0 = owptime ts -> exists t, decode_errest t0 eb = (t, eb, true) /\ owptime t = owptime ts /\ (ts_ok ts -> t = ts).
Proof.
  intros ts. unfold stamp_octets, encode_errest.
  destruct (Z.eqb_spec (multiplier ts) 0) as [e|e].
  - eexists; split; [reflexivity|]. split; [reflexivity|]. intros t0 E0.
    eexists; split; [vm_compute; reflexivity|]. split; [exact E0|]. intros (_ & _ & Hm & _). lia.
  - eexists; split; [reflexivity|]. split; [reflexivity|]. intros t0 E0.
    unfold decode_errest. cbn [byte nth]. rewrite (proj2 (Z.eqb_neq _ _) e).
    eexists; split; [reflexivity|]. split; [exact E0|].
    intros (Ht & Hs & Hm & Hc). destruct ts as [o s m c]. cbn [owptime sync multiplier scale] in *. rewrite E0.
    assert (L: Z.land c 63 = c) by (change 63 with (Z.ones 6); rewrite Z.land_ones by lia; apply Z.mod_small; lia).
    rewrite L. destruct Hs as [-> | ->]; cbn [Z.eqb].
    + replace (Z.land c 128) with 0; [|symmetry; change 128 with (2^7); rewrite <- L; rewrite <- Z.land_assoc; change (Z.land 63 (2^7)) with 0; apply Z.land_0_r].
      cbn [Z.eqb]. now rewrite L.
    + replace (Z.land (Z.lor c 128) 128) with 128.
      2:{ rewrite Z.land_lor_distr_l. replace (Z.land c 128) with 0; [reflexivity|].
          symmetry; rewrite <- L, <- Z.land_assoc; change (Z.land 63 128) with 0; apply Z.land_0_r. }
      cbn [Z.eqb]. rewrite Z.land_lor_distr_l, L. change (Z.land 128 63) with 0. now rewrite Z.lor_0_r.
Qed.

Ltac somei B := apply (f_equal (fun o => match o with Some x => x | None => @nil Z end)) in B; cbv beta iota in B.

Section P.
Variable E D : list Z -> list Z -> list Z.
Variable H : list Z -> list Z -> list Z.
Hypothesis BC : block_cipher E D.
Hypothesis DG : digest20 H.

Definition one_way_mode (m : Z) : Prop := m = MODE_OPEN \/ m = MODE_AUTH \/ m = MODE_ENCR.

(** the clear text of a packet with 16-octet blocks: sequence number, time, estimate are found *)
Lemma get_fields : forall p seq ts toff eoff eb, 0 <= seq < M32 -> is_u64 (owptime ts) ->
  sub 0 4 p = be_enc 4 seq -> sub toff 8 p = encode_timestamp ts -> sub eoff 2 p = eb -> 
  (forall t0, owptime t0 = owptime ts -> exists t, decode_errest t0 eb = (t, eb, true) /\ owptime t = owptime ts /\ (ts_ok ts -> t = ts)) ->
  exists t, (let t := decode_timestamp (mkTS 0 0 0 0) (sub toff 8 p) in
    let '(t, _, ok) := decode_errest t (sub eoff 2 p) in
    PPacket (be_dec (sub 0 4 p)) t ok) = PPacket seq t true /\ owptime t = owptime ts /\ (ts_ok ts -> t = ts).
Proof.
  intros p seq ts toff eoff eb Hs Hu S1 S2 S3 G. rewrite S1, S2, S3. rewrite be_dec_enc by auto.
  destruct (G (decode_timestamp (mkTS 0 0 0 0) (encode_timestamp ts)) (timestamp_wire ts _ Hu)) as (t & A & B).
  cbn zeta. rewrite A. eauto.
Qed.

Lemma build_length : forall mode k hk pad seq ts pkt, build_packet E H mode k hk pad seq ts = Some pkt ->
  one_way_mode mode /\ Z.of_nat (length pkt) = (if mode =? MODE_OPEN then 14 else 48) + Z.of_nat (length pad).
Proof.
  intros mode k hk pad seq ts pkt B. unfold build_packet in B.
  destruct (stamp_octets_spec ts) as (eb & S & Le & _). rewrite S in B.
  assert (L1: length (be_enc 4 seq ++ zeros 12) = 16%nat) by (rewrite app_length, be_enc_length; reflexivity).
  assert (L2: length (encode_timestamp ts ++ eb ++ zeros 6) = 16%nat) by (rewrite !app_length, Le; reflexivity).
  assert (LH: forall x, length (firstn 16 (H hk x)) = 16%nat) by (intros; rewrite firstn_length, DG; reflexivity).
  unfold one_way_mode.
  destruct (Z.eqb_spec mode MODE_OPEN) as [->|].
  { somei B; subst pkt. rewrite !app_length, be_enc_length, Le, encode_timestamp_length. split; [auto|lia]. }
  destruct (Z.eqb_spec mode MODE_AUTH) as [->|].
  { pose proof (cbc_enc_len _ _ BC 1 k (zeros 16) _ L1 eq_refl) as [C1 _].
    destruct (cbc_enc E k (zeros 16) 1 _) as [c1 iv]. cbn [fst] in C1. somei B; subst pkt.
    rewrite !app_length, LH, C1, Le, encode_timestamp_length, zeros_length. split; [auto|lia]. }
  destruct (Z.eqb_spec mode MODE_ENCR) as [->|]; [|discriminate].
  pose proof (cbc_enc_len _ _ BC 1 k (zeros 16) _ L1 eq_refl) as [C1 C2].
  destruct (cbc_enc E k (zeros 16) 1 _) as [c1 iv]. cbn [fst snd] in C1, C2.
  pose proof (cbc_enc_len _ _ BC 1 k iv _ L2 C2) as [C3 _].
  destruct (cbc_enc E k iv 1 _) as [c2 iv2]. cbn [fst] in C3. somei B; subst pkt.
  rewrite !app_length, LH, C1, C3. split; [auto|lia].
Qed.

Lemma packet_roundtrip : forall mode k hk pad seq ts pkt, 0 <= seq < M32 -> is_u64 (owptime ts) ->
  build_packet E H mode k hk pad seq ts = Some pkt ->
  exists t, parse_packet D H mode k hk pkt = PPacket seq t true /\ owptime t = owptime ts /\ (ts_ok ts -> t = ts).
Proof.
  intros mode k hk pad seq ts pkt Hs Hu B. unfold build_packet in B. unfold parse_packet.
  destruct (stamp_octets_spec ts) as (eb & S & Le & G). rewrite S in B.
  set (b1 := be_enc 4 seq ++ zeros 12) in *. set (b2 := encode_timestamp ts ++ eb ++ zeros 6) in *.
  assert (L1: length b1 = 16%nat) by (unfold b1; rewrite app_length, be_enc_length; reflexivity).
  assert (L2: length b2 = 16%nat) by (unfold b2; rewrite !app_length, Le; reflexivity).
  assert (LT := encode_timestamp_length ts).
  assert (LH: forall x, length (firstn 16 (H hk x)) = 16%nat) by (intros; rewrite firstn_length, DG; reflexivity).
  assert (F1: sub 0 4 b1 = be_enc 4 seq) by (unfold b1; apply sub_whole, be_enc_length).
  assert (F2: sub 0 8 b2 = encode_timestamp ts) by (unfold b2; apply sub_whole, encode_timestamp_length).
  assert (F3: sub 8 2 b2 = eb).
  { unfold b2. rewrite sub_app_r by (rewrite LT; lia). rewrite LT. apply sub_whole; auto. }
  destruct (Z.eqb_spec mode MODE_OPEN) as [->|].
  { somei B; subst pkt. apply (get_fields _ seq ts 4 12 eb Hs Hu); [| | |exact G].
    - apply sub_whole, be_enc_length.
    - rewrite sub_app_r by (rewrite be_enc_length; lia). rewrite be_enc_length. apply sub_whole; auto.
    - rewrite sub_app_r by (rewrite be_enc_length; lia). rewrite be_enc_length.
      rewrite sub_app_r by (rewrite LT; lia). rewrite LT. apply sub_whole; auto. }
  destruct (Z.eqb_spec mode MODE_AUTH) as [->|].
  { change (MODE_AUTH =? MODE_ENCR) with false. cbn iota.
    pose proof (cbc_enc_len _ _ BC 1 k (zeros 16) b1 L1 eq_refl) as [C1 _].
    pose proof (cbc_dec_enc _ _ BC 1 k (zeros 16) b1 L1 eq_refl) as CD.
    destruct (cbc_enc E k (zeros 16) 1 b1) as [c1 iv]. cbn [fst snd] in C1, CD. change (16 * 1)%nat with 16%nat in C1.
    somei B; subst pkt. rewrite sub_whole by auto. rewrite CD.
    assert (P: put 0 b1 (c1 ++ b2 ++ firstn 16 (H hk b1) ++ pad) = b1 ++ b2 ++ firstn 16 (H hk b1) ++ pad).
    { unfold put. cbn [firstn app]. rewrite L1. cbn [plus]. rewrite <- C1 at 1. now rewrite skipn_app, skipn_all, Nat.sub_diag. }
    rewrite P. set (hm := firstn 16 (H hk b1)) in *.
    assert (Q: sub 32 16 (b1 ++ b2 ++ hm ++ pad) = hm).
    { rewrite sub_app_r by lia. rewrite L1. rewrite sub_app_r by lia. rewrite L2. apply sub_whole. apply LH. }
    rewrite Q, eqb_octets_refl. apply (get_fields _ seq ts 16 24 eb Hs Hu); [| | |exact G].
    - rewrite sub_app_l by lia. exact F1.
    - rewrite sub_app_r by lia. rewrite L1. rewrite sub_app_l by lia. exact F2.
    - rewrite sub_app_r by lia. rewrite L1. rewrite sub_app_l by lia. exact F3. }
  destruct (Z.eqb_spec mode MODE_ENCR) as [->|]; [|discriminate].
  pose proof (cbc_enc_len _ _ BC 1 k (zeros 16) b1 L1 eq_refl) as [C1 C2].
  pose proof (cbc_dec_enc _ _ BC 1 k (zeros 16) b1 L1 eq_refl) as CD.
  destruct (cbc_enc E k (zeros 16) 1 b1) as [c1 iv]. cbn [fst snd] in C1, C2, CD. change (16 * 1)%nat with 16%nat in C1.
  pose proof (cbc_enc_len _ _ BC 1 k iv b2 L2 C2) as [C3 _].
  pose proof (cbc_dec_enc _ _ BC 1 k iv b2 L2 C2) as CD2.
  destruct (cbc_enc E k iv 1 b2) as [c2 iv2]. cbn [fst snd] in C3, CD2. change (16 * 1)%nat with 16%nat in C3.
  set (hm := firstn 16 (H hk (b1 ++ b2))) in *.
  somei B; subst pkt. rewrite sub_whole by auto. rewrite CD.
  assert (P: put 0 b1 (c1 ++ c2 ++ hm ++ pad) = b1 ++ c2 ++ hm ++ pad).
  { unfold put. cbn [firstn app]. rewrite L1. cbn [plus]. rewrite <- C1 at 1. now rewrite skipn_app, skipn_all, Nat.sub_diag. }
  rewrite P. rewrite (sub_app_r 16 16) by lia. rewrite L1. rewrite sub_whole by auto. rewrite CD2.
  assert (P2: put 16 b2 (b1 ++ c2 ++ hm ++ pad) = b1 ++ b2 ++ hm ++ pad).
  { unfold put. rewrite <- L1 at 1. rewrite firstn_app, firstn_all, Nat.sub_diag. cbn [firstn]. rewrite app_nil_r.
    rewrite L2. rewrite (app_assoc b1 c2).
    replace (16 + 16)%nat with (length (b1 ++ c2)) by (rewrite app_length; lia).
    now rewrite skipn_app, skipn_all, Nat.sub_diag. }
  rewrite P2. change (MODE_ENCR =? MODE_ENCR) with true. cbn iota.
  assert (Q: sub 32 16 (b1 ++ b2 ++ hm ++ pad) = hm).
  { rewrite sub_app_r by lia. rewrite L1. rewrite sub_app_r by lia. rewrite L2. apply sub_whole. apply LH. }
  rewrite Q. fold hm. rewrite eqb_octets_refl. apply (get_fields _ seq ts 16 24 eb Hs Hu); [| | |exact G].
  - rewrite sub_app_l by lia. exact F1.
  - rewrite sub_app_r by lia. rewrite L1. rewrite sub_app_l by lia. exact F2.
  - rewrite sub_app_r by lia. rewrite L1. rewrite sub_app_l by lia. exact F3.
Qed.

(** layout of an open-mode packet *)
Lemma open_layout : forall k hk pad seq ts pkt, 0 <= seq < M32 -> ts_ok ts ->
  build_packet E H MODE_OPEN k hk pad seq ts = Some pkt ->
  field pkt 0 4 = seq /\ spec_ts pkt 4 12 = ts /\ skipn 14 pkt = pad.
Proof.
  intros k hk pad seq ts pkt Hs Ht B. unfold build_packet in B.
  change (MODE_OPEN =? MODE_OPEN) with true in B. cbn iota in B. pose proof Ht as (Hu & Hy & Hm & Hc).
  unfold stamp_octets in B. rewrite encode_errest_value in B by auto.
  rewrite encode_timestamp_be8 in B by exact Hu. somei B; subst pkt.
  set (eb := [128 * sync ts + scale ts; multiplier ts]).
  assert (S12: forall n, sub (12 + n) 1 (be_enc 4 seq ++ be_enc 8 (owptime ts) ++ eb ++ pad) = sub n 1 (eb ++ pad)).
  { intros n. rewrite sub_app_r by (rewrite be_enc_length; lia). rewrite be_enc_length. rewrite sub_app_r by (rewrite be_enc_length; lia).
    rewrite be_enc_length. f_equal. lia. }
  split; [|split].
  - rewrite field_be, sub_whole by apply be_enc_length. now apply be_dec_enc.
  - unfold spec_ts. rewrite !field_be. rewrite (sub_app_r 4 8) by (rewrite be_enc_length; lia).
    rewrite be_enc_length. rewrite sub_whole by apply be_enc_length. rewrite be_dec_enc by exact Hu.
    change 12%nat with (12 + 0)%nat at 1 3. rewrite !S12. unfold eb.
    cbn [sub app skipn firstn]. unfold sub. cbn [app skipn firstn]. rewrite !be_dec_cons, be_dec_nil. cbn [length].
    destruct ts as [o s m c]. cbn [owptime sync multiplier scale] in *. f_equal; lia.
  - rewrite !app_assoc. rewrite skipn_app. rewrite skipn_all2; [|rewrite !app_length, !be_enc_length; cbn; lia].
    cbn [app]. rewrite !app_length, !be_enc_length. reflexivity.
Qed.

End P.
