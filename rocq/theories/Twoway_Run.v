From Coq Require Import ZArith List Bool Lia ZifyBool ZifyNat.
From Verif Require Import Base BaseLemmas Puts Arith_Model Arith_Proofs Time_Model Time_Proofs Wire_Model Wire_Spec Wire_Proofs
  Control_Model Control_Spec Control_Proofs File_Proofs Packet_Model Packet_Proofs Sender_Model Sender_Spec Sender_Proofs Receiver_Model Receiver_Spec Receiver_Proofs Receiver_Run
  Reflector_Model Reflector_Spec Reflector_Proofs Twoway_Model Twoway_Spec Twoway_Proofs Twoway_Inv.
Import ListNotations.
Open Scope Z_scope.
Ltac Zify.zify_post_hook ::= Z.div_mod_to_equations.

Section Msg.
Variable E D : list Z -> list Z -> list Z.
Variable H : list Z -> list Z -> list Z.
Variable mode : Z.
Variable p : protection.
Hypothesis BC : block_cipher E D.
Hypothesis DG : digest20 H.
Hypothesis DL : blocks16 D.
Hypothesis DO : forall k b, octets b -> octets (D k b).
Hypothesis PM : protection_of mode = Some p.

(** ** the request *)
Lemma request_spec : forall ak hk pad seq ts pkt len, (req_pad p <= len)%nat -> length pad = (len - req_pad p)%nat ->
  tw_request E H mode ak hk pad seq ts = Some pkt -> 0 <= seq < M32 ->
  length pkt = len /\ request_authentic H p hk (request_clear D p ak pkt) /\ field (request_clear D p ak pkt) 0 4 = seq /\
  field (request_clear D p ak pkt) (req_time p) 8 = number (encode_timestamp ts) /\
  field (request_clear D p ak pkt) (req_err p + 1) 1 <> 0.
Proof using BC DG PM.
  clear DO DL.
  intros ak hk pad seq ts pkt len LN LP B Hs. unfold tw_request in B. unfold build_packet in B.
  destruct (stamp_octets_spec ts) as (eb & S & Le & G). rewrite S in B.
  set (b1 := be_enc 4 seq ++ zeros 12) in *. set (b2 := encode_timestamp ts ++ eb ++ zeros 6) in *.
  assert (L1: length b1 = 16%nat) by (unfold b1; rewrite app_length, be_enc_length; reflexivity).
  assert (L2: length b2 = 16%nat) by (unfold b2; rewrite !app_length, Le; reflexivity).
  assert (LT := encode_timestamp_length ts).
  assert (LH: forall x, length (firstn 16 (H hk x)) = 16%nat) by (intros; rewrite firstn_length, DG; reflexivity).
  assert (F1: sub 0 4 b1 = be_enc 4 seq) by (unfold b1; apply sub_whole, be_enc_length).
  assert (F2: sub 0 8 b2 = encode_timestamp ts) by (unfold b2; apply sub_whole, encode_timestamp_length).
  assert (NB: number (sub 1 1 eb) <> 0).
  { destruct (G ts eq_refl) as (t & GT & _). destruct eb as [|x [|y [|]]]; try discriminate Le. unfold decode_errest in GT.
    change (sub 1 1 [x; y]) with [y]. unfold number. cbn [length]. cbn.
    unfold byte in GT. cbn [nth] in GT. destruct (Z.eqb_spec y 0) as [->|]; [|lia]. discriminate GT. }
  assert (F3: sub 9 1 b2 = sub 1 1 eb).
  { unfold b2. rewrite sub_app_r by (rewrite LT; lia). rewrite LT. rewrite sub_app_l by lia. reflexivity. }
  assert (NS: number (be_enc 4 seq) = seq) by (rewrite number_be; now apply be_dec_enc).
  unfold request_clear. destruct (modes mode p PM) as [[-> M]|[[-> M]|[-> M]]]; cbn [req_pad req_time req_err] in *.
  - assert (X: (if mode =? MODE_MIXED then MODE_OPEN else mode) = MODE_OPEN).
    { unfold open_mode in M. destruct (Z.eqb_spec mode MODE_MIXED); [reflexivity|]. destruct (Z.eqb_spec mode MODE_OPEN); [assumption|discriminate]. }
    rewrite X in B. change (MODE_OPEN =? MODE_OPEN) with true in B. cbn iota in B. somei B; subst pkt. cbn [unchained request_authentic].
    split; [rewrite !app_length, be_enc_length, LT, Le; lia|]. split; [exact I|].
    rewrite !field_sub. split; [rewrite sub_whole by apply be_enc_length; exact NS|].
    rewrite (sub_app_r 4 8), (sub_app_r (12 + 1) 1) by (rewrite be_enc_length; lia). rewrite be_enc_length. split; [rewrite sub_whole by auto; reflexivity|].
    change (12 + 1 - 4)%nat with 9%nat. rewrite sub_app_r by (rewrite LT; lia). rewrite LT. rewrite sub_app_l by lia. exact NB.
  - rewrite M in B. change (MODE_AUTH =? MODE_MIXED) with false in B. cbn iota in B. change (MODE_AUTH =? MODE_OPEN) with false in B. change (MODE_AUTH =? MODE_AUTH) with true in B. cbn iota in B.
    pose proof (cbc_enc_len _ _ BC 1 ak (zeros 16) b1 L1 eq_refl) as [C1 _].
    pose proof (cbc_dec_enc _ _ BC 1 ak (zeros 16) b1 L1 eq_refl) as CD.
    destruct (cbc_enc E ak (zeros 16) 1 b1) as [c1 iv]. cbn [fst snd] in C1, CD. change (16 * 1)%nat with 16%nat in C1. somei B; subst pkt.
    set (rest := b2 ++ firstn 16 (H hk b1) ++ pad).
    assert (LL: length (c1 ++ rest) = len) by (unfold rest; rewrite !app_length, C1, L2, LH; lia). split; [exact LL|].
    rewrite unchained_dec by lia. change (16 * 1)%nat with 16%nat. change (repeat 0 16) with (zeros 16).
    replace (firstn 16 (c1 ++ rest)) with c1 by (rewrite <- C1; rewrite firstn_app, firstn_all, Nat.sub_diag, firstn_O, app_nil_r; reflexivity).
    replace (skipn 16 (c1 ++ rest)) with rest by (rewrite <- C1; rewrite skipn_app, skipn_all, Nat.sub_diag; reflexivity).
    rewrite CD. cbn [fst]. cbn [request_authentic]. rewrite !octs_sub, !field_sub.
    split; [|split; [|split]].
    + rewrite sub_app_r by lia. rewrite L1. unfold rest. rewrite sub_app_r by lia. rewrite L2. change (32 - 16 - 16)%nat with 0%nat. rewrite sub_whole by apply LH.
      rewrite <- L1 at 3. rewrite firstn_app, firstn_all, Nat.sub_diag, firstn_O, app_nil_r. reflexivity.
    + rewrite sub_app_l by lia. rewrite F1. exact NS.
    + rewrite sub_app_r by lia. rewrite L1. unfold rest. rewrite sub_app_l by lia. change (16 - 16)%nat with 0%nat. rewrite F2. reflexivity.
    + change (24 + 1)%nat with 25%nat. rewrite sub_app_r by lia. rewrite L1. unfold rest. rewrite sub_app_l by lia. change (25 - 16)%nat with 9%nat. rewrite F3. exact NB.
  - rewrite M in B. change (MODE_ENCR =? MODE_MIXED) with false in B. cbn iota in B. change (MODE_ENCR =? MODE_OPEN) with false in B. change (MODE_ENCR =? MODE_AUTH) with false in B.
    change (MODE_ENCR =? MODE_ENCR) with true in B. cbn iota in B.
    assert (LB: length (b1 ++ b2) = 32%nat) by (rewrite app_length; lia).
    pose proof (cbc_enc_len _ _ BC 2 ak (zeros 16) (b1 ++ b2) LB eq_refl) as [C1 _].
    pose proof (cbc_dec_enc _ _ BC 2 ak (zeros 16) (b1 ++ b2) LB eq_refl) as CD.
    assert (CE: exists iv2, cbc_enc E ak (zeros 16) 2 (b1 ++ b2) = (fst (cbc_enc E ak (zeros 16) 1 b1) ++ fst (cbc_enc E ak (snd (cbc_enc E ak (zeros 16) 1 b1)) 1 b2), iv2)).
    { cbn [cbc_enc fst snd]. rewrite !app_nil_r.
      replace (firstn 16 (b1 ++ b2)) with b1 by (rewrite <- L1; rewrite firstn_app, firstn_all, Nat.sub_diag, firstn_O, app_nil_r; reflexivity).
      replace (skipn 16 (b1 ++ b2)) with b2 by (rewrite <- L1; rewrite skipn_app, skipn_all, Nat.sub_diag; reflexivity).
      rewrite (firstn_all2 b1), (firstn_all2 b2) by lia. eexists. reflexivity. }
    destruct CE as (iv2 & CE). rewrite CE in C1, CD. cbn [fst snd] in C1, CD.
    destruct (cbc_enc E ak (zeros 16) 1 b1) as [c1 iv]. cbn [fst snd] in *. destruct (cbc_enc E ak iv 1 b2) as [c2 iv3]. cbn [fst snd] in *. somei B; subst pkt.
    change (16 * 2)%nat with 32%nat in C1.
    set (rest := firstn 16 (H hk (b1 ++ b2)) ++ pad). rewrite (app_assoc c1 c2 rest).
    assert (LL: length ((c1 ++ c2) ++ rest) = len) by (unfold rest; rewrite app_length, C1, app_length, LH; lia). split; [exact LL|].
    rewrite unchained_dec by lia. change (16 * 2)%nat with 32%nat. change (repeat 0 16) with (zeros 16).
    replace (firstn 32 ((c1 ++ c2) ++ rest)) with (c1 ++ c2) by (rewrite <- C1; rewrite firstn_app, firstn_all, Nat.sub_diag, firstn_O, app_nil_r; reflexivity).
    replace (skipn 32 ((c1 ++ c2) ++ rest)) with rest by (rewrite <- C1; rewrite skipn_app, skipn_all, Nat.sub_diag; reflexivity).
    rewrite CD. cbn [fst]. cbn [request_authentic]. rewrite !octs_sub, !field_sub.
    split; [|split; [|split]].
    + rewrite sub_app_r by lia. rewrite LB. unfold rest. change (32 - 32)%nat with 0%nat. rewrite sub_whole by apply LH.
      replace (firstn 32 ((b1 ++ b2) ++ firstn 16 (H hk (b1 ++ b2)) ++ pad)) with (b1 ++ b2); [reflexivity|].
      rewrite <- LB at 1. rewrite firstn_app, firstn_all, Nat.sub_diag, firstn_O, app_nil_r. reflexivity.
    + rewrite sub_app_l by lia. rewrite sub_app_l by lia. rewrite F1. exact NS.
    + rewrite sub_app_l by lia. rewrite sub_app_r by lia. rewrite L1. change (16 - 16)%nat with 0%nat. rewrite F2. reflexivity.
    + change (24 + 1)%nat with 25%nat. rewrite sub_app_l by lia. rewrite sub_app_r by lia. rewrite L1. change (25 - 16)%nat with 9%nat. rewrite F3. exact NB.
Qed.

(** ** the reply *)
Lemma open_reply_spec : forall rk hk buf, (at_pad (reply_pos p) <= length buf)%nat ->
  forall c, open_reply D H mode rk hk buf = Some c <-> c = reply_clear D p rk buf /\ reply_authentic H p hk (reply_clear D p rk buf).
Proof using DL PM.
  clear DO BC DG E.
  intros rk hk buf L c. unfold open_reply, reply_clear. destruct (modes mode p PM) as [[-> M]|[[-> M]|[-> M]]]; cbn [reply_pos at_pad] in *.
  - rewrite M. cbn [unchained reply_authentic]. split; [intros X; injection X as <-; auto|intros [-> _]; reflexivity].
  - rewrite M. change (open_mode MODE_AUTH) with false. cbn iota. change (MODE_AUTH =? MODE_ENCR) with false. cbn iota.
    rewrite unchained_dec by lia. change (16 * 1)%nat with 16%nat. change (sub 0 16 buf) with (firstn 16 buf). change (repeat 0 16) with (zeros 16).
    assert (LP: length (fst (cbc_dec D rk (zeros 16) 1 (firstn 16 buf))) = 16%nat).
    { cbn [cbc_dec fst]. rewrite app_nil_r, xor_octets_length, DL by (rewrite firstn_length, firstn_length; lia). reflexivity. }
    destruct (cbc_dec D rk (zeros 16) 1 (firstn 16 buf)) as [p1 iv]. cbn [fst] in *.
    assert (PE: put 0 p1 buf = p1 ++ skipn 16 buf) by (rewrite put0_app, LP; reflexivity). rewrite PE.
    cbn [reply_authentic]. rewrite octs_sub.
    replace (firstn 16 (p1 ++ skipn 16 buf)) with p1 by (rewrite <- LP; rewrite firstn_app, firstn_all, Nat.sub_diag, firstn_O, app_nil_r; reflexivity).
    split.
    + destruct (eqb_octets _ _) eqn:Q; [|discriminate]. intros X. injection X as <-. apply eqb_octets_spec in Q. auto.
    + intros [-> Q]. rewrite Q, eqb_octets_refl. reflexivity.
  - rewrite M. change (open_mode MODE_ENCR) with false. cbn iota. change (MODE_ENCR =? MODE_ENCR) with true. cbn iota.
    rewrite unchained_dec by lia. change (16 * 6)%nat with 96%nat. change (sub 0 16 buf) with (firstn 16 buf). change (repeat 0 16) with (zeros 16).
    assert (SP: exists iv2, cbc_dec D rk (zeros 16) 6 (firstn 96 buf) =
      (fst (cbc_dec D rk (zeros 16) 1 (firstn 16 buf)) ++ fst (cbc_dec D rk (snd (cbc_dec D rk (zeros 16) 1 (firstn 16 buf))) 5 (sub 16 80 buf)), iv2)).
    { change (cbc_dec D rk (zeros 16) 6 (firstn 96 buf)) with
        (let '(r, iv') := cbc_dec D rk (firstn 16 (firstn 96 buf)) 5 (skipn 16 (firstn 96 buf)) in (xor_octets (D rk (firstn 16 (firstn 96 buf))) (zeros 16) ++ r, iv')).
      rewrite firstn_firstn. change (Nat.min 16 96) with 16%nat. cbn [cbc_dec]. rewrite firstn_firstn. change (Nat.min 16 16) with 16%nat. cbn [fst snd].
      replace (skipn 16 (firstn 96 buf)) with (sub 16 80 buf) by (unfold sub; rewrite skipn_firstn_comm; reflexivity).
      eexists. rewrite !app_nil_r. reflexivity. }
    destruct SP as (iv2 & SP).
    assert (LA: length (fst (cbc_dec D rk (zeros 16) 6 (firstn 96 buf))) = 96%nat).
    { pose proof (unchained_length D DL 6 rk (zeros 16) (firstn 96 buf) eq_refl ltac:(rewrite firstn_length; lia)) as X.
      rewrite unchained_dec in X by (rewrite firstn_length; lia). change (16 * 6)%nat with 96%nat in X. rewrite firstn_firstn in X. change (Nat.min 96 96) with 96%nat in X.
      rewrite app_length, skipn_length, firstn_length in X. lia. }
    rewrite SP in LA |- *. clear SP. cbn [fst] in LA |- *.
    assert (LP: length (fst (cbc_dec D rk (zeros 16) 1 (firstn 16 buf))) = 16%nat).
    { cbn [cbc_dec fst]. rewrite app_nil_r, xor_octets_length, DL by (rewrite firstn_length, firstn_length; lia). reflexivity. }
    destruct (cbc_dec D rk (zeros 16) 1 (firstn 16 buf)) as [p1 iv]. cbn [fst snd] in *.
    rewrite (sub_put_disjoint 16 80 0 p1 buf) by lia.
    destruct (cbc_dec D rk iv 5 (sub 16 80 buf)) as [p2 iv5]. cbn [fst snd] in *. rewrite app_length in LA.
    assert (PE: put 16 p2 (put 0 p1 buf) = (p1 ++ p2) ++ skipn 96 buf).
    { rewrite put0_app, LP. rewrite put_app_r by lia. rewrite LP, Nat.sub_diag, put0_app. rewrite skipn_more, <- app_assoc. do 3 f_equal. lia. }
    rewrite PE. cbn [reply_authentic]. rewrite octs_sub.
    replace (firstn 96 ((p1 ++ p2) ++ skipn 96 buf)) with (p1 ++ p2).
    2: { rewrite firstn_app. rewrite (firstn_all2 (p1 ++ p2)) by (rewrite app_length; lia). replace (96 - length (p1 ++ p2))%nat with 0%nat by (rewrite app_length; lia). rewrite firstn_O, app_nil_r. reflexivity. }
    split.
    + destruct (eqb_octets _ _) eqn:Q; [|discriminate]. intros X. injection X as <-. apply eqb_octets_spec in Q. auto.
    + intros [-> Q]. rewrite Q, eqb_octets_refl. reflexivity.
Qed.

Definition nblocks : nat := match p with Plain => 0 | FirstBlock => 1 | AllBlocks => 6 end%nat.
Lemma nblocks_small : (16 * nblocks <= at_pad (reply_pos p) /\ at_pad (reply_pos p) - 16 * nblocks <= 112)%nat.
Proof using. clear. unfold nblocks. destruct p; cbn; lia. Qed.

Lemma reply_clear_firstn : forall rk buf n, (at_pad (reply_pos p) <= n)%nat -> (at_pad (reply_pos p) <= length buf)%nat ->
  reply_clear D p rk (firstn n buf) = firstn n (reply_clear D p rk buf).
Proof using DL.
  clear DO BC DG PM E H mode.
  intros rk buf n Hn L. unfold reply_clear. fold nblocks. pose proof nblocks_small as [N _].
  rewrite !unchained_dec by (rewrite ?firstn_length; lia). rewrite firstn_firstn. replace (Nat.min (16 * nblocks) n) with (16 * nblocks)%nat by lia.
  assert (X: length (fst (cbc_dec D rk (repeat 0 16) nblocks (firstn (16 * nblocks) buf))) = (16 * nblocks)%nat).
  { pose proof (unchained_length D DL nblocks rk (zeros 16) (firstn (16 * nblocks) buf) eq_refl ltac:(rewrite firstn_length; lia)) as X.
    rewrite unchained_dec in X by (rewrite firstn_length; lia). rewrite firstn_firstn in X. replace (Nat.min (16 * nblocks) (16 * nblocks)) with (16 * nblocks)%nat in X by lia.
    rewrite app_length, skipn_length, firstn_length in X. change (repeat 0 16) with (zeros 16). lia. }
  rewrite firstn_app, X. rewrite (firstn_all2 (fst _)) by lia. f_equal. rewrite skipn_firstn_comm. reflexivity.
Qed.

Lemma reply_clear_octets : forall rk buf, octets buf -> (at_pad (reply_pos p) <= length buf)%nat -> octet_string (length buf) (reply_clear D p rk buf).
Proof using DL DO.
  clear BC DG PM E H mode.
  intros rk buf O L. pose proof nblocks_small as [N _]. split.
  - unfold reply_clear. fold nblocks. apply unchained_length; [exact DL|reflexivity|lia].
  - unfold reply_clear. fold nblocks. rewrite unchained_dec by lia. apply Forall_app. split.
    + apply cbc_dec_octets; [apply DO|exact (zeros_octets 16)|apply firstn_octets; exact O].
    + apply skipn_octets. exact O.
Qed.

Lemma authentic_firstn : forall hk c n, (at_pad (reply_pos p) <= n)%nat -> reply_authentic H p hk (firstn n c) <-> reply_authentic H p hk c.
Proof using.
  clear. intros hk c n L. unfold reply_authentic, octs_at. destruct p; cbn [reply_pos at_pad] in L; [tauto| |].
  - rewrite skipn_firstn_comm, !firstn_firstn. replace (Nat.min 16 (n - 96)) with 16%nat by lia. replace (Nat.min 16 n) with 16%nat by lia. tauto.
  - rewrite skipn_firstn_comm, !firstn_firstn. replace (Nat.min 16 (n - 96)) with 16%nat by lia. replace (Nat.min 96 n) with 96%nat by lia. tauto.
Qed.
Lemma field_firstn : forall c o l n, (o + l <= n)%nat -> field (firstn n c) o l = field c o l.
Proof using. clear. intros. rewrite !field_sub. unfold sub. rewrite skipn_firstn_comm, firstn_firstn. do 2 f_equal. lia. Qed.
Lemma spec_ts_firstn : forall c o oe n, (o + 8 <= n)%nat -> (oe + 2 <= n)%nat -> spec_ts (firstn n c) o oe = spec_ts c o oe.
Proof using. clear. intros. unfold spec_ts. rewrite !field_firstn by lia. reflexivity. Qed.
Lemma tells_firstn : forall c n k ttl r, (at_pad (reply_pos p) <= n)%nat -> tells p (firstn n c) k ttl r <-> tells p c k ttl r.
Proof using.
  clear. intros c n k ttl r L. unfold tells. rewrite !field_firstn by (destruct p; cbn in *; lia). rewrite !spec_ts_firstn by (destruct p; cbn in *; lia). tauto.
Qed.

Lemma read_reply_spec : forall buf rts ttl r n c, octet_string n buf -> (at_pad (reply_pos p) <= n)%nat -> owptime rts = time_of c ->
  read_reply mode buf rts ttl = Some r -> tells p buf c ttl r /\ owptime (r_recv (tw_refl r)) = owptime rts /\ r_seq (tw_sent r) = be_dec (sub (p_sseq (rep_at mode)) 4 buf).
Proof using PM.
  clear DO BC DG DL E D H.
  intros buf rts ttl r n c O L T. unfold read_reply. rewrite (proj1 (rep_at_pos mode p PM)). cbn [p_sseq p_sts p_serr p_rcv p_tstamperr p_tstamp p_sttl].
  change (mkTS 0 0 0 0) with ts0.
  assert (B: (at_stime (reply_pos p) + 8 <= n /\ at_serr (reply_pos p) + 2 <= n /\ at_rcv (reply_pos p) + 8 <= n /\ at_err (reply_pos p) + 2 <= n /\
    at_time (reply_pos p) + 8 <= n /\ at_sttl (reply_pos p) < n)%nat) by (destruct p; cbn in *; lia).
  destruct B as (B1 & B2 & B3 & B4 & B5 & B6).
  destruct (decode_ts_at buf n _ _ O B1 B2) as [S1 V1]. destruct (decode_ts_at buf n _ _ O B3 B4) as [S2 V2]. destruct (decode_ts_at buf n _ _ O B5 B4) as [S3 V3].
  destruct (decode_errest (decode_timestamp ts0 (sub (at_stime (reply_pos p)) 8 buf)) (sub (at_serr (reply_pos p)) 2 buf)) as [[ss x1] ok1].
  destruct (decode_errest (decode_timestamp ts0 (sub (at_rcv (reply_pos p)) 8 buf)) (sub (at_err (reply_pos p)) 2 buf)) as [[sr x2] ok2].
  destruct (decode_errest (decode_timestamp ts0 (sub (at_time (reply_pos p)) 8 buf)) (sub (at_err (reply_pos p)) 2 buf)) as [[rs x3] ok3].
  cbn [fst snd] in *. destruct ok1; [|discriminate]. destruct ok2; [|discriminate]. cbn [andb]. intros X. injection X as <-.
  assert (Z1: field buf (at_serr (reply_pos p) + 1) 1 <> 0) by (intros X; rewrite X in S1; discriminate).
  assert (Z2: field buf (at_err (reply_pos p) + 1) 1 <> 0) by (intros X; rewrite X in S2; discriminate).
  specialize (V1 Z1). specialize (V2 Z2). specialize (V3 Z2). subst ss sr rs.
  unfold tells. cbn [tw_sent tw_refl r_seq r_send r_recv r_ttl]. rewrite !field_be. split; [|auto].
  repeat (split; [first [reflexivity | exact T | apply byte_is_be; rewrite (proj1 O); exact B6]|]). reflexivity.
Qed.

Lemma tw_size : tw_payload_size mode 0 = Z.of_nat (at_pad (reply_pos p)) /\ payload_size mode 0 = Z.of_nat (req_pad p).
Proof using PM.
  clear -PM. destruct (modes mode p PM) as [[-> M]|[[-> ->]|[-> ->]]]; try (split; reflexivity).
  unfold tw_payload_size, payload_size. unfold open_mode in M. rewrite M. split; reflexivity.
Qed.
End Msg.
