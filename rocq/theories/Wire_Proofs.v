(** Proofs about the octet codecs of protocol.c. *)
From Coq Require Import ZArith List Bool Lia ZifyBool ZifyNat.
From Verif Require Import Base BaseLemmas Arith_Model Arith_Proofs Time_Model Time_Proofs Sched_Model
  Wire_Model Wire_Spec Puts.
Import ListNotations.
Open Scope Z_scope.
Ltac Zify.zify_post_hook ::= Z.div_mod_to_equations.

Lemma number_be : forall l, number l = be_dec l.
Proof.
  induction l; cbn [number]; [reflexivity|]. rewrite be_dec_cons. now rewrite IHl.
Qed.

Lemma field_be : forall m off len, field m off len = be_dec (sub off len m).
Proof. intros. apply number_be. Qed.

Lemma enc_num64_length : forall x, length (enc_num64 x) = 8%nat.
Proof. intros. apply encode_timestamp_length. Qed.

Lemma dec_enc_num64 : forall x, is_u64 x -> dec_num64 (enc_num64 x) = x.
Proof. intros. unfold dec_num64, enc_num64. now apply (timestamp_wire (mkTS x 0 0 0)). Qed.

Lemma dec_num64_be : forall b, length b = 8%nat -> octets b -> dec_num64 b = be_dec b.
Proof. intros. now apply decode_timestamp_be8. Qed.

Lemma be_dec_enc_num64 : forall x, is_u64 x -> be_dec (enc_num64 x) = x.
Proof.
  intros. unfold enc_num64. rewrite encode_timestamp_be8 by exact H. now apply be_dec_enc.
Qed.

Lemma enc_num64_octets : forall x, octets (enc_num64 x).
Proof. intros. apply encode_timestamp_octets. Qed.

Lemma enc_num64_dec : forall b, length b = 8%nat -> octets b -> enc_num64 (dec_num64 b) = b.
Proof.
  intros. unfold enc_num64, dec_num64.
  rewrite <- (timestamp_wire_onto (mkTS 0 0 0 0) b) at 2 by auto. reflexivity.
Qed.

(** ** slots *)
Lemma encode_slot_octs : forall s b, encode_slot s = Some b ->
  b = (match s with SlotExp _ => 0 | SlotLit _ => 1 | SlotOther => 0 end) :: zeros 7
      ++ enc_num64 (match s with SlotExp m => m | SlotLit o => o | SlotOther => 0 end).
Proof. intros s b H. destruct s; inversion H; subst; reflexivity. Qed.

Lemma slot_roundtrip : forall s, slot_ok s ->
  exists b, encode_slot s = Some b /\ octet_string 16 b /\ decode_slot b = Some s.
Proof.
  intros s H. destruct s as [x|x|]; cbn [slot_ok] in H; try contradiction;
  (eexists; split; [reflexivity|]); (split; [split; [reflexivity|]|]).
  1,3: apply put_octets; [apply enc_num64_octets|]; apply put_octets; [|apply zeros_octets];
       constructor; [red; lia|constructor].
  - unfold decode_slot. rewrite sub_put_same by reflexivity. rewrite dec_enc_num64 by auto. reflexivity.
  - unfold decode_slot. rewrite sub_put_same by reflexivity. rewrite dec_enc_num64 by auto. reflexivity.
Qed.

Lemma decode_slot_iff : forall b s, octet_string 16 b ->
  (decode_slot b = Some s <->
   (field b 0 1 = 0 /\ s = SlotExp (field b 8 8)) \/ (field b 0 1 = 1 /\ s = SlotLit (field b 8 8))).
Proof.
  intros b s [L O].
  assert (F: field b 0 1 = byte 0 b) by (rewrite field_be; symmetry; apply byte_is_be; lia).
  assert (G: dec_num64 (sub 8 8 b) = field b 8 8).
  { rewrite field_be. apply dec_num64_be. - apply sub_length; lia. - now apply sub_octets. }
  rewrite F. unfold decode_slot. rewrite G.
  pose proof (byte_bound 0 b O).
  destruct (Z.eq_dec (byte 0 b) 0) as [E|E]; [|destruct (Z.eq_dec (byte 0 b) 1) as [E'|E']].
  - rewrite E. split; intros K; [left; split; congruence | destruct K as [[_ ->]|[]]; congruence].
  - rewrite E'. split; intros K; [right; split; congruence | destruct K as [[]|[_ ->]]; congruence].
  - split; [|intros [[]|[]]; contradiction].
    destruct (byte 0 b) as [|p|p]; try lia. destruct p; try discriminate. lia.
Qed.

(** ** skip records *)
Lemma skip_roundtrip : forall s, is_u32 (sk_begin s) -> is_u32 (sk_end s) ->
  octet_string 8 (encode_skip s) /\ decode_skip (encode_skip s) = s.
Proof.
  intros s Hb He. split; [split; [reflexivity|]|].
  - unfold encode_skip. apply Forall_app; split; apply be_enc_octets.
  - unfold decode_skip, encode_skip.
    change (sub 0 4 (be_enc 4 (sk_begin s) ++ be_enc 4 (sk_end s))) with (be_enc 4 (sk_begin s)).
    change (sub 4 4 (be_enc 4 (sk_begin s) ++ be_enc 4 (sk_end s))) with (be_enc 4 (sk_end s)).
    rewrite !be_dec_enc by assumption. now destruct s.
Qed.

(** ** data records *)
Lemma encode_datarec_octs : forall r se re,
  encode_errest (r_send r) = Some se -> encode_errest (r_recv r) = Some re ->
  encode_datarec r = Some (be_enc 4 (r_seq r) ++ se ++ re ++ encode_timestamp (r_send r)
                            ++ encode_timestamp (r_recv r) ++ [u8 (r_ttl r)]).
Proof.
  intros r se re Hs Hr. unfold encode_datarec. rewrite Hs, Hr.
  unfold encode_errest in *. destruct (_ =? 0); [discriminate|]. destruct (multiplier (r_recv r) =? 0); [discriminate|].
  inversion Hs; subst. inversion Hr; subst. reflexivity.
Qed.

Lemma decode_ts_full : forall t, ts_ok t ->
  exists e, encode_errest t = Some e /\ length e = 2%nat /\ octets e /\
    (forall t0, owptime t0 = owptime t -> fst (fst (decode_errest t0 e)) = t /\ snd (decode_errest t0 e) = true).
Proof.
  intros t (Hu & Hs & Hm & Hc).
  assert (E: exists e, encode_errest t = Some e).
  { rewrite encode_errest_value by assumption. eauto. }
  destruct E as [e E]. exists e. split; auto.
  destruct (encode_errest_octets t e) as [O L]; auto. { red; lia. }
  split; auto. split; auto. intros t0 H.
  destruct (decode_errest_encode t t0 e Hs Hc E) as [D _]. rewrite D. cbn [fst snd].
  split; auto. rewrite H. now destruct t.
Qed.

Lemma datarec_roundtrip : forall r, rec_ok r ->
  exists b, encode_datarec r = Some b /\ octet_string 25 b /\ decode_datarec 3 b = Some r.
Proof.
  intros r (Hq & Hs & Hr & Ht).
  destruct (decode_ts_full _ Hs) as (se & Es & Ls & Os & Ds).
  destruct (decode_ts_full _ Hr) as (re & Er & Lr & Or & Dr).
  eexists. split; [apply encode_datarec_octs; eauto|].
  split; [split|].
  - rewrite !app_length, be_enc_length, Ls, Lr, !encode_timestamp_length. reflexivity.
  - change (octets (be_enc 4 (r_seq r) ++ se ++ re ++ encode_timestamp (r_send r)
                            ++ encode_timestamp (r_recv r) ++ [u8 (r_ttl r)])).
    assert (OA: forall a b, octets a -> octets b -> octets (a ++ b)) by (intros; now apply Forall_app).
    assert (O1: octets [u8 (r_ttl r)]) by (constructor; [apply Z.mod_pos_bound; lia|constructor]).
    auto 20 using be_enc_octets, encode_timestamp_octets.
  - do 2 (destruct se as [|? se]; try discriminate Ls). destruct se; try discriminate Ls.
    do 2 (destruct re as [|? re]; try discriminate Lr). destruct re; try discriminate Lr.
    unfold decode_datarec.
    change ((3 =? 0) || (3 =? 2)) with false. change (3 =? 3) with true. cbv iota.
    match goal with |- context [sub 8 8 ?b] => change (sub 8 8 b) with (encode_timestamp (r_send r));
      change (sub 16 8 b) with (encode_timestamp (r_recv r)); change (byte 24 b) with (u8 (r_ttl r));
      change (sub 0 4 b) with (be_enc 4 (r_seq r)) end.
    match goal with |- context [sub 4 2 ?b] => change (sub 4 2 b) with [z;z0];
      change (sub 6 2 b) with [z1;z2] end.
    destruct (Ds (decode_timestamp ts0 (encode_timestamp (r_send r)))) as [D1 D2].
    { apply timestamp_wire. apply Hs. }
    destruct (Dr (decode_timestamp ts0 (encode_timestamp (r_recv r)))) as [D3 D4].
    { apply timestamp_wire. apply Hr. }
    destruct (decode_errest _ [z;z0]) as [[a1 a2] a3]. destruct (decode_errest _ [z1;z2]) as [[b1 b2] b3].
    cbn [fst snd] in *. subst a3 b3 a1 b1. rewrite be_dec_enc by assumption.
    unfold u8. rewrite Z.mod_small by assumption. now destruct r.
Qed.

Lemma encode_datarec_none : forall r,
  encode_datarec r = None <-> (multiplier (r_send r) = 0 \/ multiplier (r_recv r) = 0).
Proof.
  intros r. unfold encode_datarec, encode_errest.
  destruct (Z.eqb_spec (multiplier (r_send r)) 0); [tauto|].
  destruct (Z.eqb_spec (multiplier (r_recv r)) 0); [tauto|].
  split; [discriminate|tauto].
Qed.

(** decoding accepts exactly the strings with non-zero multipliers, and loses nothing but the
    unused bit of the error-estimate octet *)
Lemma decode_errest_fields : forall t0 b, octet_string 2 b ->
  snd (decode_errest t0 b) = negb (byte 1 b =? 0) /\
  (byte 1 b <> 0 -> fst (fst (decode_errest t0 b)) =
     mkTS (owptime t0) (byte 0 b / 128) (byte 1 b) (byte 0 b mod 64)).
Proof.
  intros t0 b [L O]. unfold decode_errest. split; [reflexivity|].
  intros H. destruct (Z.eqb_spec (byte 1 b) 0); [lia|]. cbn [fst].
  pose proof (byte_bound 0 b O) as B. f_equal.
  - assert (E: Z.land (byte 0 b) 128 = (byte 0 b / 128) * 128).
    { apply Z.bits_inj'. intros k Hk. rewrite Z.land_spec.
      change 128 with (2^7). rewrite Z.pow2_bits_eqb by lia.
      rewrite <- Z.shiftr_div_pow2, <- Z.shiftl_mul_pow2 by lia.
      destruct (Z.eqb_spec 7 k).
      - subst k. rewrite Z.shiftl_spec, Z.shiftr_spec by lia. now rewrite andb_true_r.
      - rewrite andb_false_r. destruct (Z.ltb_spec k 7).
        + rewrite Z.shiftl_spec_low; auto; lia.
        + rewrite Z.shiftl_spec, Z.shiftr_spec by lia. symmetry.
          apply Z.bits_above_log2; [lia|].
          destruct (Z.eq_dec (byte 0 b) 0) as [E0|]; [rewrite E0; cbn; lia|].
          apply Z.log2_lt_pow2; [lia|]. apply Z.lt_le_trans with (2^8); [change (2^8) with 256; lia|].
          apply Z.pow_le_mono_r; lia. }
    rewrite E. destruct (Z.eqb_spec (byte 0 b / 128 * 128) 0); lia.
  - change 63 with (Z.ones 6). rewrite Z.land_ones by lia. reflexivity.
Qed.

Lemma decode_ts_at : forall b n ot oe, octet_string n b -> (ot + 8 <= n)%nat -> (oe + 2 <= n)%nat ->
  let d := decode_errest (decode_timestamp ts0 (sub ot 8 b)) (sub oe 2 b) in
  snd d = negb (field b (oe + 1) 1 =? 0) /\
  (field b (oe + 1) 1 <> 0 -> fst (fst d) = spec_ts b ot oe).
Proof.
  intros b n ot oe [L O] Ho He d. subst d.
  destruct (decode_errest_fields (decode_timestamp ts0 (sub ot 8 b)) (sub oe 2 b)) as [D1 D2].
  { split. - apply sub_length. lia. - now apply sub_octets. }
  assert (B1: byte 1 (sub oe 2 b) = field b (oe+1) 1).
  { rewrite field_be, <- byte_is_be by lia. unfold byte. rewrite !nth_nth_nth_map || idtac.
    assert (E: nth_error (sub oe 2 b) 1 = nth_error b (oe + 1)) by (apply nth_error_sub; lia).
    rewrite (nth_error_nth' b 0) in E by lia. now apply nth_error_nth. }
  assert (B0: byte 0 (sub oe 2 b) = field b oe 1).
  { rewrite field_be, <- byte_is_be by lia. unfold byte.
    assert (E: nth_error (sub oe 2 b) 0 = nth_error b (oe + 0)) by (apply nth_error_sub; lia).
    replace (oe + 0)%nat with oe in E by lia.
    rewrite (nth_error_nth' b 0) in E by lia. now apply nth_error_nth. }
  rewrite B1 in *. split; auto. intros H. rewrite D2 by auto. rewrite B0.
  unfold spec_ts. f_equal. rewrite field_be. apply decode_timestamp_be8.
  - apply sub_length; lia. - now apply sub_octets.
Qed.

Lemma decode_v3_iff : forall b r, octet_string 25 b ->
  (decode_datarec 3 b = Some r <->
   field b 5 1 <> 0 /\ field b 7 1 <> 0 /\
   r = mkRec (field b 0 4) (spec_ts b 8 4) (spec_ts b 16 6) (field b 24 1)).
Proof.
  intros b r H. unfold decode_datarec.
  change ((3 =? 0) || (3 =? 2)) with false. change (3 =? 3) with true. cbv iota.
  destruct (decode_ts_at b 25 8 4 H) as [A1 A2]; try lia.
  destruct (decode_ts_at b 25 16 6 H) as [B1 B2]; try lia.
  destruct (decode_errest _ (sub 4 2 b)) as [[a1 a2] a3]. destruct (decode_errest _ (sub 6 2 b)) as [[b1 b2] b3].
  cbn [fst snd Nat.add] in *.
  destruct (Z.eqb_spec (field b 5 1) 0) as [E1|E1]; cbn [negb] in *; subst a3; [split; [discriminate|tauto]|].
  destruct (Z.eqb_spec (field b 7 1) 0) as [E2|E2]; cbn [negb] in *; subst b3; [split; [discriminate|tauto]|].
  rewrite A2, B2 by auto. rewrite <- field_be. destruct H as [L O].
  rewrite byte_is_be by lia. rewrite <- field_be.
  split; [intros K; inversion K; auto | intros (_ & _ & ->); auto].
Qed.

Lemma decode_v2_iff : forall v b r, v = 0 \/ v = 2 -> octet_string 24 b ->
  (decode_datarec v b = Some r <->
   field b 13 1 <> 0 /\ field b 23 1 <> 0 /\
   r = mkRec (field b 0 4) (spec_ts b 4 12) (spec_ts b 14 22) 255).
Proof.
  intros v b r Hv H. unfold decode_datarec.
  replace ((v =? 0) || (v =? 2)) with true by (destruct Hv; subst; reflexivity). 
  destruct (decode_ts_at b 24 4 12 H) as [A1 A2]; try lia.
  destruct (decode_ts_at b 24 14 22 H) as [B1 B2]; try lia.
  destruct (decode_errest _ (sub 12 2 b)) as [[a1 a2] a3]. destruct (decode_errest _ (sub 22 2 b)) as [[b1 b2] b3].
  cbn [fst snd Nat.add] in *.
  destruct (Z.eqb_spec (field b 13 1) 0) as [E1|E1]; cbn [negb] in *; subst a3; [split; [discriminate|tauto]|].
  destruct (Z.eqb_spec (field b 23 1) 0) as [E2|E2]; cbn [negb] in *; subst b3; [split; [discriminate|tauto]|].
  rewrite A2, B2 by auto. rewrite <- field_be.
  split; [intros K; inversion K; auto | intros (_ & _ & ->); auto].
Qed.

Lemma decode_datarec_version : forall v b, v <> 0 -> v <> 2 -> v <> 3 -> decode_datarec v b = None.
Proof.
  intros. unfold decode_datarec.
  destruct (Z.eqb_spec v 0); [lia|]. destruct (Z.eqb_spec v 2); [lia|]. destruct (Z.eqb_spec v 3); [lia|].
  reflexivity.
Qed.

Lemma twrec_roundtrip : forall r, rec_ok (tw_sent r) -> rec_ok (tw_refl r) ->
  exists b, encode_twrec r = Some b /\ octet_string 50 b /\ decode_twrec 131 b = Some r.
Proof.
  intros r H1 H2. destruct (datarec_roundtrip _ H1) as (a & Ea & [La Oa] & Da).
  destruct (datarec_roundtrip _ H2) as (b & Eb & [Lb Ob] & Db).
  exists (a ++ b). unfold encode_twrec, decode_twrec. rewrite Ea, Eb. split; [reflexivity|].
  split. { split. - rewrite app_length; lia. - apply Forall_app; auto. }
  change (131 =? 131) with true. cbv iota.
  assert (E1: sub 0 25 (a ++ b) = a).
  { unfold sub. cbn [skipn]. rewrite firstn_app, La. rewrite Nat.sub_diag, firstn_O, app_nil_r. apply firstn_all2. lia. }
  assert (E2: sub 25 25 (a ++ b) = b).
  { unfold sub. rewrite skipn_app, La, skipn_all2 by lia. rewrite Nat.sub_diag. cbn [skipn app]. apply firstn_all2. lia. }
  rewrite E1, E2, Da, Db. now destruct r.
Qed.

Lemma encode_twrec_none : forall r,
  encode_twrec r = None <-> (multiplier (r_send (tw_sent r)) = 0 \/ multiplier (r_recv (tw_sent r)) = 0
    \/ multiplier (r_send (tw_refl r)) = 0 \/ multiplier (r_recv (tw_refl r)) = 0).
Proof.
  intros r. unfold encode_twrec.
  pose proof (encode_datarec_none (tw_sent r)) as A. pose proof (encode_datarec_none (tw_refl r)) as B.
  destruct (encode_datarec (tw_sent r)); [destruct (encode_datarec (tw_refl r))|];
  split; intros K; try discriminate; auto; intuition congruence.
Qed.

(** ** preamble *)
Lemma put_ge : forall n off bs buf, (off + length bs <= n)%nat -> (n <= length buf)%nat ->
  (n <= length (put off bs buf))%nat.
Proof. intros. rewrite put_length; lia. Qed.

Lemma put_length' : forall n off bs buf, (off + length bs <= n)%nat -> (n <= length buf)%nat ->
  length (put off bs buf) = length buf.
Proof. intros. apply put_length. lia. Qed.

Lemma sub_put_same' : forall n off len bs buf, len = length bs -> (off + length bs <= n)%nat ->
  (n <= length buf)%nat -> sub off len (put off bs buf) = bs.
Proof. intros. apply sub_put_same; lia. Qed.

Lemma sub_put_disjoint' : forall n o1 l1 o2 bs buf,
  (o1 + l1 <= o2 \/ o2 + length bs <= o1)%nat -> (o2 + length bs <= n)%nat -> (n <= length buf)%nat ->
  sub o1 l1 (put o2 bs buf) = sub o1 l1 buf.
Proof. intros. apply sub_put_disjoint; lia. Qed.

Ltac lens := rewrite ?be_enc_length, ?enc_num64_length, ?zeros_length; cbn [length]; lia.
Ltac geq n := repeat (apply (put_ge n); [lens|]); lia.
Ltac psub n := repeat first
  [ rewrite (sub_put_same' n) by first [lens | geq n]
  | rewrite (sub_put_disjoint' n) by first [lens | geq n] ].

Ltac putoct za :=
  repeat match goal with |- octets (put _ _ _) => apply put_octets end;
  match goal with
  | |- octets [_] => constructor; [|constructor];
       repeat match goal with |- context [if ?x then _ else _] => destruct x end; split; cbn; lia
  | |- octets (if _ then _ else _) => destruct za; [apply zeros_octets|assumption]
  | |- _ => first [assumption | apply be_enc_octets | apply zeros_octets | apply enc_num64_octets]
  end.

Lemma byte1_be : forall x, be_dec [x] = x.
Proof. intros. cbn. destruct x; auto. Qed.

Lemma encode_preamble_layout : forall msg len s r cs cr tw za sid t m,
  (112 <= length msg)%nat -> sa_ok s -> sa_ok r -> tspec_ok t ->
  length sid = 16%nat ->
  encode_preamble msg len s r cs cr tw za (Some sid) t = Some m ->
  length m = length msg /\ (octets msg -> octets sid -> octets m) /\ layout m s r cs cr tw za sid t.
Proof.
  intros msg len s r cs cr tw za sid t m HL (Hsp & Hso & Hsl) (Hrp & Hro & Hrl) (T1&T2&T3&T4&T5&T6) Lsid H.
  unfold encode_preamble in H.
  destruct (len <? 112); [discriminate|].
  destruct (negb tw && negb cs && negb cr); [discriminate|].
  destruct (family_eqb _ _) eqn:F; cbn [negb] in H; [|discriminate].
  destruct (sa_family s) eqn:Fs; [| |discriminate]; destruct (sa_family r) eqn:Fr; try discriminate F;
  (destruct (negb tw && _); [discriminate|]); (change (4 =? 6) with false in H || change (6 =? 6) with true in H);
  cbv beta zeta iota in H.
  all: match type of H with Some ?b = _ =>
      let r := reify_puts b (@nil (nat * list Z)) in
      match r with (?ws, ?buf) => set (WS := ws); assert (E: m = writes WS buf) by (injection H as <-; reflexivity) end
    end; clear H.
  all: match type of Fs with
    | _ = AF_INET =>
      assert (SH: shape WS = [(0,1);(1,1);(2,1);(3,1);(4,4);(8,4);(16,4);(12,2);(20,12);(32,4);(14,2);(36,12);
                              (48,16);(64,4);(68,8);(76,8);(84,4);(88,24)]%nat)
    | _ => assert (SH: shape WS = [(0,1);(1,1);(2,1);(3,1);(4,4);(8,4);(16,16);(12,2);(32,16);(14,2);
                              (48,16);(64,4);(68,8);(76,8);(84,4);(88,24)]%nat)
    end.
  1,3: unfold shape, WS; cbn [map fst snd]; rewrite Lsid;
       replace (length (if za then _ else sa_addr s)) with (length (sa_addr s)) by (destruct za; auto);
       replace (length (if za then _ else sa_addr r)) with (length (sa_addr r)) by (destruct za; auto);
       rewrite Hsl, Hrl; reflexivity.
  all: split; [rewrite E; apply (len_writes 112 _ _ _ SH); [reflexivity|lia]|].
  all: split; [intros; rewrite E; apply writes_octets; auto; subst WS;
      repeat (apply Forall_cons; [cbn [snd]; putoct za|]); apply Forall_nil|].
  all: unfold layout; rewrite Fs; cbv zeta iota; rewrite !field_be;
    change octs_at with (fun m o l => sub o l m); cbv beta; rewrite E;
    wsub 112%nat SH; subst WS; cbn [nth snd];
    rewrite ?byte1_be, ?be_dec_enc_num64 by assumption.
  all: rewrite ?(be_dec_enc 4 (ts_padding t)), ?(be_dec_enc 4 (ts_typeP t)), ?(be_dec_enc 2) by assumption.
  all: repeat split; auto; try (intros; discriminate); try (destruct tw, cs; reflexivity); try (destruct tw, cr; reflexivity).
  all: destruct tw; apply be_dec_enc; auto; cbn; lia.
Qed.

Lemma encode_preamble_accepts : forall msg len s r cs cr tw za sid t,
  (exists m, encode_preamble msg len s r cs cr tw za sid t = Some m) <->
  112 <= len /\ sa_family s = sa_family r /\ sa_family s <> AF_OTHER /\
  (tw = false -> (cs = true \/ cr = true) /\ 1 <= ts_npackets t /\ 1 <= ts_nslots t /\ ts_slots t <> None).
Proof.
  intros msg len s r cs cr tw za sid t. unfold encode_preamble.
  destruct (Z.ltb_spec len 112) as [Hl|Hl]; [split; [intros [? K]; discriminate | intros [K _]; lia]|].
  split.
  - intros [m H0]. split; [lia|].
    destruct (negb tw && negb cs && negb cr) eqn:E1; [discriminate|].
    destruct (sa_family s), (sa_family r); cbn [family_eqb negb] in H0; try discriminate;
    (split; [reflexivity|]); (split; [discriminate|]); intros ->; cbn [negb andb] in *;
    (destruct (Z.ltb_spec (ts_npackets t) 1); [discriminate|]);
    (destruct (Z.ltb_spec (ts_nslots t) 1); [discriminate|]);
    (destruct (ts_slots t); [|discriminate]); (split; [|repeat split; auto; discriminate]);
    destruct cs, cr; auto; discriminate.
  - intros (_ & Hf & Ho & Ht). rewrite <- Hf.
    destruct tw.
    + cbn [negb andb]. destruct (sa_family s); [| |contradiction]; cbn [family_eqb negb orb andb]; eexists; reflexivity.
    + destruct Ht as (Hc & Hp & Hn & Hs); auto.
      replace (negb false && negb cs && negb cr) with false by (destruct cs, cr; auto; destruct Hc; discriminate).
      destruct (Z.ltb_spec (ts_npackets t) 1); [lia|]. destruct (Z.ltb_spec (ts_nslots t) 1); [lia|].
      destruct (ts_slots t); [|contradiction].
      destruct (sa_family s); [| |contradiction]; cbn [family_eqb negb orb andb]; eexists; reflexivity.
Qed.

(** with a NULL sid the octets 48..63 keep whatever the message buffer held before *)
Lemma encode_preamble_null_sid : forall msg len s r cs cr tw za t m,
  (112 <= length msg)%nat -> sa_ok s -> sa_ok r ->
  encode_preamble msg len s r cs cr tw za None t = Some m ->
  encode_preamble msg len s r cs cr tw za (Some (octs_at msg 48 16)) t = Some m.
Proof.
  intros msg len s r cs cr tw za t m HL (_ & _ & Ls) (_ & _ & Lr) H. unfold encode_preamble in *.
  destruct (len <? 112); [discriminate|].
  destruct (negb tw && negb cs && negb cr); [discriminate|].
  destruct (family_eqb _ _) eqn:F; cbn [negb] in *; [|discriminate].
  assert (PS: forall b, (112 <= length b)%nat -> sub 48 16 b = octs_at msg 48 16 -> put 48 (octs_at msg 48 16) b = b).
  { intros b Hb Hs. rewrite <- Hs. apply nth_error_ext. intros i.
    rewrite nth_error_put by (rewrite sub_length; lia). rewrite sub_length by lia.
    destruct (Nat.leb_spec 48 i); cbn [andb]; auto. destruct (Nat.ltb_spec i (48+16)); auto.
    rewrite nth_error_sub by lia. f_equal. lia. }
  destruct (sa_family s) eqn:Fs; [| |discriminate]; destruct (sa_family r) eqn:Fr; try discriminate F;
  (destruct (negb tw && _); [discriminate|]); (change (4 =? 6) with false in * || change (6 =? 6) with true in * );
  cbv beta zeta iota in *.
  all: rewrite PS; [exact H| |].
  all: (assert (Lz: length (if za then zeros 4 else sa_addr s) = 4%nat) by (destruct za; [reflexivity|auto]);
        assert (Lz': length (if za then zeros 4 else sa_addr r) = 4%nat) by (destruct za; [reflexivity|auto]))
    || (assert (Lz: length (if za then zeros 16 else sa_addr s) = 16%nat) by (destruct za; [reflexivity|auto]);
        assert (Lz': length (if za then zeros 16 else sa_addr r) = 16%nat) by (destruct za; [reflexivity|auto])).
  1,3: geq 112%nat.
  all: psub 112%nat; reflexivity.
Qed.

Lemma bool_eq_iff : forall (b : bool) P, (b = true <-> P) -> forall b' : bool, (b' = true <-> P) -> b = b'.
Proof. intros [] P H []; intuition congruence. Qed.

Lemma decode_preamble_iff : forall request m len tw socklen p,
  octet_string 112 m -> 28 <= socklen ->
  (decode_preamble request m len tw socklen = PreOK p <-> len = 112 /\ pre_legal tw m /\ pre_fields request m p).
Proof.
  intros request m len tw socklen p [L O] Hs. unfold decode_preamble.
  destruct (Z.eqb_spec len 112) as [El|El]; cbn [negb]; [|split; [discriminate|tauto]].
  assert (B: forall i, (i < 112)%nat -> byte i m = field m i 1).
  { intros. rewrite field_be. apply byte_is_be. lia. }
  rewrite !B by lia. clear B.
  assert (D: forall o, (o + 8 <= 112)%nat -> dec_num64 (sub o 8 m) = field m o 8).
  { intros. rewrite field_be. apply dec_num64_be. - apply sub_length; lia. - now apply sub_octets. }
  rewrite !D by lia. clear D. rewrite <- !field_be.
  change 15 with (Z.ones 4). rewrite Z.land_ones by lia. change (2^4) with 16.
  change sub with (fun o l m => octs_at m o l). cbv beta.
  set (cs := negb (field m 2 1 =? 0)). set (cr := negb (field m 3 1 =? 0)).
  assert (Cs: cs = true <-> field m 2 1 <> 0) by (subst cs; destruct (Z.eqb_spec (field m 2 1) 0); cbn; intuition congruence).
  assert (Cr: cr = true <-> field m 3 1 <> 0) by (subst cr; destruct (Z.eqb_spec (field m 3 1) 0); cbn; intuition congruence).
  clearbody cs cr.
  assert (LEG: (negb cs && negb cr && negb tw = false /\ tw && (cs || cr) = false /\
          tw && (negb (field m 4 4 =? 0) || negb (field m 8 4 =? 0)) = false /\
          (field m 1 1 mod 16 = 4 \/ field m 1 1 mod 16 = 6)) <-> pre_legal tw m).
  { unfold pre_legal. destruct tw; cbn [andb negb].
    - rewrite andb_false_r.
      destruct (Z.eqb_spec (field m 4 4) 0), (Z.eqb_spec (field m 8 4) 0); cbn [negb orb];
      destruct cs, cr; cbn [orb]; intuition (try congruence; try lia).
    - rewrite andb_true_r. destruct cs, cr; cbn [orb negb andb]; intuition (try congruence; try lia). }
  assert (FLD: forall P Q, P = field m 1 1 mod 16 -> 
     (Q = (if field m 1 1 mod 16 =? 6 then AF_INET6 else AF_INET, if field m 1 1 mod 16 =? 6 then 16%nat else 4%nat)) ->
     pre_fields request m p <->
     p = mkPre P (mkSA (fst Q) (if request && cs then 0 else field m 12 2) (octs_at m 16 (snd Q)))
           (mkSA (fst Q) (if request && cr then 0 else field m 14 2) (octs_at m 32 (snd Q))) cs cr (octs_at m 48 16)
           (field m 4 4) (field m 8 4) (field m 64 4) (field m 68 8) (field m 76 8) (field m 84 4)).
  { intros P Q -> ->. unfold pre_fields. cbn [fst snd]. split.
    - intros (A1&A2&A3&A4&A5&A6&A7&A8&A9&A10&A11&A12).
      assert (p_conf_sender p = cs) by (eapply bool_eq_iff; eauto; symmetry; eauto).
      assert (p_conf_receiver p = cr) by (eapply bool_eq_iff; eauto; symmetry; eauto).
      destruct p. cbn in *. subst. reflexivity.
    - intros ->. cbn. repeat split; auto; try apply Cs; try apply Cr. }
  destruct (negb cs && negb cr && negb tw) eqn:E1. { split; [discriminate|]. intros (_ & K & _). apply LEG in K. destruct K; discriminate. }
  destruct (tw && (cs || cr)) eqn:E2. { split; [discriminate|]. intros (_ & K & _). apply LEG in K. destruct K as (_&K&_); discriminate. }
  destruct (tw && (negb (field m 4 4 =? 0) || negb (field m 8 4 =? 0))) eqn:E3. { split; [discriminate|]. intros (_ & K & _). apply LEG in K. destruct K as (_&_&K&_). congruence. }
  cbv zeta.
  destruct (Z.eqb_spec (field m 1 1 mod 16) 6) as [E6|E6].
  - destruct (Z.ltb_spec socklen 28); [lia|].
    rewrite (FLD _ _ eq_refl eq_refl), E6. cbn [Z.eqb Pos.eqb fst snd].
    split; [intros K; injection K as <-|intros (_ & _ & ->); reflexivity].
    split; auto. split; auto. apply LEG. auto.
  - destruct (Z.eqb_spec (field m 1 1 mod 16) 4) as [E4|E4].
    + destruct (Z.ltb_spec socklen 16); [lia|].
      rewrite (FLD _ _ eq_refl eq_refl), E4. cbn [Z.eqb Pos.eqb fst snd].
      split; [intros K; injection K as <-|intros (_ & _ & ->); reflexivity].
      split; auto. split; auto. apply LEG. auto.
    + split; [discriminate|]. intros (_ & [[K|K] _] & _); congruence.
Qed.

Lemma octs_firstn : forall (m : list Z) n off len, (off + len <= n)%nat -> octs_at (firstn n m) off len = octs_at m off len.
Proof.
  intros. unfold octs_at. rewrite skipn_firstn_comm. rewrite firstn_firstn. f_equal. lia.
Qed.

Lemma preamble_roundtrip : forall msg len s r cs cr tw sid t m request,
  (112 <= length msg)%nat -> octets msg -> octet_string 16 sid -> sa_ok s -> sa_ok r -> tspec_ok t ->
  encode_preamble msg len s r cs cr tw false (Some sid) t = Some m ->
  decode_preamble request (firstn 112 m) 112 tw 28 =
  PreOK (mkPre (match sa_family s with AF_INET6 => 6 | _ => 4 end)
     (mkSA (sa_family s) (if request && cs && negb tw then 0 else sa_port s) (sa_addr s))
     (mkSA (sa_family r) (if request && cr && negb tw then 0 else sa_port r) (sa_addr r))
     (cs && negb tw) (cr && negb tw) sid
     (if tw then 0 else ts_nslots t) (if tw then 0 else ts_npackets t)
     (ts_padding t) (ts_start t) (ts_timeout t) (ts_typeP t)).
Proof.
  intros msg len s r cs cr tw sid t m request HL Hmo [Hsl Hso] Hs Hr Ht H.
  destruct (encode_preamble_layout _ _ _ _ _ _ _ _ _ _ _ HL Hs Hr Ht Hsl H) as (Lm & Om & LAY).
  specialize (Om Hmo Hso).
  assert (Hmisc: sa_family s = sa_family r /\ sa_family s <> AF_OTHER /\ (tw = false -> cs = true \/ cr = true)).
  { unfold encode_preamble in H. destruct (len <? 112); [discriminate|].
    destruct tw, cs, cr; cbn [negb andb] in H; try discriminate;
    destruct (sa_family s), (sa_family r); cbn [family_eqb negb] in H; try discriminate; repeat split; auto; discriminate. }
  destruct Hmisc as (Hf & Hno & Hcc).
  assert (OS: octet_string 112 (firstn 112 m)).
  { split. - rewrite firstn_length. lia. - unfold octets in Om. rewrite <- (firstn_skipn 112 m) in Om. apply Forall_app in Om. tauto. }
  apply (decode_preamble_iff request _ 112 tw 28 _ OS); [lia|].
  split; [reflexivity|].
  destruct LAY as (A1&A2&A3&A4&A5&A6&A7&A8&A9&A10&A11&A12&A13&A14&A15&A16&A17&A18).
  assert (FF: forall o l, (o + l <= 112)%nat -> field (firstn 112 m) o l = field m o l).
  { intros. unfold field. now rewrite octs_firstn. }
  split.
  - unfold pre_legal. rewrite !FF by lia. rewrite A2, A3, A4, A5, A6. split.
    + destruct (sa_family s); cbn; auto.
    + destruct tw; auto. destruct cs, cr; auto; try (left; lia); try (right; lia).
  - unfold pre_fields. cbn [p_ipvn p_sender p_receiver p_conf_sender p_conf_receiver p_sid p_nslots p_npackets p_padding p_start p_timeout p_typeP].
    rewrite !FF by lia. rewrite !octs_firstn by (destruct (sa_family s); cbn; lia).
    rewrite A2, A3, A4, A5, A6, A7, A8, A13, A14, A15, A16, A17, <- !andb_assoc, <- Hf.
    destruct (sa_family s) eqn:Fs; cbn [Z.eqb Pos.eqb] in *; [| |congruence]; rewrite A9, A11;
    repeat split; auto; destruct tw, cs, cr; cbn [andb negb]; intros; try lia; try discriminate; auto.
Qed.
