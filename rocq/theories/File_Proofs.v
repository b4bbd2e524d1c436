(** Proofs about the session file functions. *)
From Coq Require Import ZArith List Bool Lia ZifyBool ZifyNat.
From Verif Require Import Base BaseLemmas Time_Model Sched_Model Wire_Model Wire_Spec Wire_Proofs Control_Proofs File_Model File_Spec.
Import ListNotations.
Open Scope Z_scope.
Ltac Zify.zify_post_hook ::= Z.div_mod_to_equations.

Lemma sub_app_l : forall o l a b, (o + l <= length a)%nat -> sub o l (a ++ b) = sub o l a.
Proof.
  intros o l a b L. unfold sub. rewrite skipn_app, firstn_app, skipn_length.
  replace (l - (length a - o))%nat with 0%nat by lia. cbn [firstn]. now rewrite app_nil_r.
Qed.
Lemma sub_app_r : forall o l a b, (length a <= o)%nat -> sub o l (a ++ b) = sub (o - length a) l b.
Proof.
  intros o l a b L. unfold sub. rewrite skipn_app. rewrite (skipn_all2 a) by lia. reflexivity.
Qed.
Lemma sub_whole : forall a b n, length a = n -> sub 0 n (a ++ b) = a.
Proof. intros a b n L. rewrite sub_app_l by lia. now apply sub_all. Qed.

Ltac blen := rewrite ?be_enc_length, ?zeros_length; cbn [length]; lia.
(** field of a concatenation *)
Ltac seek := repeat (rewrite sub_app_r by blen; rewrite ?be_enc_length, ?zeros_length; cbn [length Nat.sub]).
Ltac fieldat := seek; first [ rewrite sub_whole by blen | rewrite sub_app_l by blen; rewrite sub_all by blen ].

Lemma initial_v3 : forall f v, (40 <= length f)%nat -> sub 0 4 f = magic -> be_dec (sub 4 4 f) = v -> v = 3 \/ v = 131 ->
  read_initial f = Some (mkIH v (if v =? 3 then 25 else 50) (off_t (be_dec (sub 32 8 f))) (finished_type (be_dec (sub 8 4 f)))
     (be_dec (sub 12 4 f)) (be_dec (sub 16 4 f)) (be_dec (sub 20 4 f)) (off_t (be_dec (sub 24 8 f))) (off_t (be_dec (sub 32 8 f)))
     (Z.of_nat (length f)) true).
Proof.
  intros f v L M V HV. unfold read_initial. rewrite M, V.
  destruct (Z.ltb_spec (Z.of_nat (length f)) 16); [lia|].
  change (eqb_octets magic magic) with true. cbn [negb].
  unfold fread. destruct (Nat.ltb_spec (length f) (0 + 40)); [lia|].
  rewrite !sub_sub by lia. destruct HV; subst v; rewrite H1; reflexivity.
Qed.

Lemma off_t_small : forall x, 0 <= x < 2^63 -> off_t x = x.
Proof. intros x H. unfold off_t. destruct (Z.ltb_spec x 9223372036854775808); [reflexivity|]. change (2^63) with 9223372036854775808 in H. lia. Qed.

Lemma encode_slots_ok : forall l, Forall slot_ok l -> exists b, encode_slots l = Some b /\ length b = (16 * length l)%nat /\ octets b /\
  (forall pre post f, f = pre ++ b ++ post -> decode_slots (length pre) (length l) f = Some l).
Proof.
  induction 1 as [|s l Hs Hl (bs & IH1 & IH2 & IH3 & IH4)]; cbn [encode_slots length].
  - exists []. repeat split; auto. constructor.
  - destruct (slot_roundtrip s Hs) as (b & B1 & (B2 & B3) & B4). rewrite B1, IH1. exists (b ++ bs).
    split; [reflexivity|]. split; [rewrite app_length; lia|]. split; [apply Forall_app; split; assumption|].
    intros pre post f F. cbn [decode_slots]. unfold fread.
    assert (L: length f = (length pre + 16 + length bs + length post)%nat) by (subst f; rewrite !app_length; lia).
    destruct (Nat.ltb_spec (length f) (length pre + 16)); [lia|].
    assert (S: sub (length pre) 16 f = b).
    { subst f. rewrite sub_app_r by lia. rewrite Nat.sub_diag, <- app_assoc. now apply sub_whole. }
    rewrite S, B4. specialize (IH4 (pre ++ b) post f). rewrite app_length, B2 in IH4. rewrite IH4; [reflexivity|].
    subst f. rewrite <- !app_assoc. reflexivity.
Qed.

Lemma enc_dec32 : forall x, 0 <= x < 2^32 -> be_dec (be_enc 4 x) = x.
Proof. intros. apply be_dec_enc. exact H. Qed.
Lemma enc_dec64 : forall x, 0 <= x < 2^64 -> be_dec (be_enc 8 x) = x.
Proof. intros. apply be_dec_enc. exact H. Qed.

(** the header as written *)
Lemma write_header_shape : forall junk h slots f, octet_string 112 junk -> header_ok h slots -> write_header junk h = Some f ->
  exists pre sl, octet_string 112 pre /\ length sl = (16 * length slots)%nat /\ octets sl /\
    (forall p q g, g = p ++ sl ++ q -> decode_slots (length p) (length slots) g = Some slots) /\
    decode_preamble false pre 112 false 28 =
      PreOK (mkPre (match sa_family (hd_sender h) with AF_INET6 => 6 | _ => 4 end) (hd_sender h) (hd_receiver h)
        (if hd_twoway h then true else hd_csender h) (hd_creceiver h) (hd_sid h)
        (ts_nslots (hd_spec h)) (ts_npackets (hd_spec h)) (ts_padding (hd_spec h)) (ts_start (hd_spec h)) (ts_timeout (hd_spec h)) (ts_typeP (hd_spec h))) /\
    let oset := 152 + (16 * ((Z.of_nat (length slots) + 1) mod M32)) mod M32 in
    let oskip := if negb (hd_nskip h =? 0) then oset else if negb (hd_ndata h =? 0) then oset + (hd_ndata h * hd_recsize h) mod M32 else 0 in
    let odata := if negb (hd_nskip h =? 0) then oset + (hd_nskip h * 8) mod M32 else oset in
    f = magic ++ be_enc 4 (if hd_twoway h then 131 else 3) ++
        be_enc 4 (if (hd_finished h =? 0) || (hd_finished h =? 1) then hd_finished h else 2) ++ be_enc 4 (hd_next h) ++ be_enc 4 (hd_nskip h) ++
        be_enc 4 (hd_ndata h) ++ be_enc 8 (u64 oskip) ++ be_enc 8 (u64 odata) ++ pre ++ sl ++ zeros 16.
Proof.
  intros junk h slots f (JL & JO) (S & R & F & F' & SID & T & NP & SL & SLO & NS0 & NS & C & _) W.
  unfold write_header in W.
  destruct (encode_preamble junk 112 (hd_sender h) (hd_receiver h) (if hd_twoway h then true else hd_csender h) (hd_creceiver h) false false
    (Some (hd_sid h)) (hd_spec h)) as [pre|] eqn:P; [|discriminate].
  pose proof (encode_preamble_layout junk 112 _ _ _ _ _ _ _ _ _ ltac:(lia) S R T (proj1 SID) P) as (PL & PO & _).
  pose proof (preamble_roundtrip junk 112 _ _ _ _ _ _ _ _ false ltac:(lia) JO SID S R T P) as PR.
  rewrite JL in PL. rewrite SL in W. rewrite NS, Nat2Z.id, firstn_all in W.
  destruct (encode_slots_ok slots SLO) as (sl & E1 & E2 & E3 & E4). rewrite E1 in W.
  exists (firstn 112 pre), sl. split.
  { split; [rewrite firstn_length; lia|]. rewrite <- PL, firstn_all. apply PO; [exact JO|apply SID]. }
  split; [exact E2|]. split; [exact E3|]. split; [exact E4|]. split.
  { rewrite PR. cbn [negb andb]. rewrite !andb_true_r. destruct (hd_sender h), (hd_receiver h). reflexivity. }
  cbv zeta. injection W as <-. reflexivity.
Qed.

Lemma decode_preamble_socklen : forall rq m len tw, decode_preamble rq m len tw 128 = decode_preamble rq m len tw 28.
Proof. intros. apply decode_preamble_ext; lia || reflexivity. Qed.

Lemma header_roundtrip : forall junk h slots f tail, octet_string 112 junk -> header_ok h slots ->
  Z.of_nat (length slots) + 1 < 2^28 -> hd_nskip h < 2^29 ->
  write_header junk h = Some f ->
  length f = (152 + 16 * (length slots + 1))%nat /\
  let rl := rec_len (hd_twoway h) in
  let data := Z.of_nat (length tail) - 8 * hd_nskip h in
  0 <= data -> hd_ndata h <= data / rl -> data / rl < 2^32 ->
  exists h', read_header (f ++ tail) = Some (h', hd_odata h') /\
    hd_odata h' = Z.of_nat (length f) + 8 * hd_nskip h /\
    (hd_nskip h <> 0 -> hd_oskip h' = Z.of_nat (length f)) /\
    (hd_nskip h = 0 -> hd_ndata h <> 0 -> 0 <= hd_recsize h -> hd_ndata h * hd_recsize h < 2^32 -> hd_oskip h' = Z.of_nat (length f) + hd_ndata h * hd_recsize h) /\
    (hd_nskip h = 0 -> hd_ndata h = 0 -> hd_oskip h' = 0) /\
    hd_twoway h' = hd_twoway h /\ hd_recsize h' = rl /\ hd_version h' = (if hd_twoway h then 131 else 3) /\
    hd_finished h' = (if (hd_finished h =? 0) || (hd_finished h =? 1) then hd_finished h else 2) /\
    hd_next h' = hd_next h /\ hd_nskip h' = hd_nskip h /\
    hd_ndata h' = (if (hd_finished h =? 1) && negb (hd_twoway h) then hd_ndata h else data / rl) /\
    hd_sender h' = hd_sender h /\ hd_receiver h' = hd_receiver h /\
    hd_csender h' = (if hd_twoway h then true else hd_csender h) /\ hd_creceiver h' = hd_creceiver h /\ hd_sid h' = hd_sid h /\
    hd_spec h' = mkTSpec (ts_start (hd_spec h)) (ts_timeout (hd_spec h)) (ts_typeP (hd_spec h)) (ts_padding (hd_spec h))
                   (ts_npackets (hd_spec h)) (ts_nslots (hd_spec h)) None /\
    read_header_slots (ts_nslots (hd_spec h)) (f ++ tail) = Some slots.
Proof.
  intros junk h slots f tail J HO NSL NSK W.
  destruct (write_header_shape junk h slots f J HO W) as (pre & sl & (PL & PO) & SLL & SLO & SLD & PD & FE). cbv zeta in FE.
  destruct HO as (S & R & F & F' & SID & T & NP & SL & SLK & NS0 & NS & C & N1 & N2 & N3).
  assert (OS: (16 * ((Z.of_nat (length slots) + 1) mod M32)) mod M32 = 16 * (Z.of_nat (length slots) + 1)).
  { change (2^28) with 268435456 in NSL. rewrite (Z.mod_small (Z.of_nat (length slots) + 1)) by lia. apply Z.mod_small. lia. }
  assert (SK: (hd_nskip h * 8) mod M32 = 8 * hd_nskip h) by (change (2^29) with 536870912 in NSK; rewrite Z.mod_small by lia; lia).
  rewrite OS, SK in FE. clear OS SK.
  assert (FL: length f = (152 + 16 * (length slots + 1))%nat).
  { rewrite FE, !app_length, !be_enc_length, PL, SLL, zeros_length. cbn [length magic]. lia. }
  split; [exact FL|]. cbv zeta.
  set (oskip := if negb (hd_nskip h =? 0) then 152 + 16 * (Z.of_nat (length slots) + 1) else
                if negb (hd_ndata h =? 0) then 152 + 16 * (Z.of_nat (length slots) + 1) + (hd_ndata h * hd_recsize h) mod M32 else 0) in *.
  set (odata := if negb (hd_nskip h =? 0) then 152 + 16 * (Z.of_nat (length slots) + 1) + 8 * hd_nskip h else 152 + 16 * (Z.of_nat (length slots) + 1)) in *.
  assert (OK: 0 <= oskip < 2^63).
  { change (2^63) with 9223372036854775808. change (2^28) with 268435456 in NSL. unfold oskip.
    pose proof (Z.mod_pos_bound (hd_ndata h * hd_recsize h) 4294967296 ltac:(lia)). destruct (hd_nskip h =? 0), (hd_ndata h =? 0); cbn [negb]; lia. }
  assert (OD: odata = Z.of_nat (length f) + 8 * hd_nskip h).
  { unfold odata. destruct (Z.eqb_spec (hd_nskip h) 0) as [Z0|Z0]; cbn [negb]; lia. }
  assert (ODB: 0 <= odata < 2^63) by (change (2^63) with 9223372036854775808; change (2^28) with 268435456 in NSL; change (2^29) with 536870912 in NSK; lia).
  set (fin := if (hd_finished h =? 0) || (hd_finished h =? 1) then hd_finished h else 2) in *.
  assert (FB: fin = 0 \/ fin = 1 \/ fin = 2) by (unfold fin; destruct (Z.eqb_spec (hd_finished h) 0); destruct (Z.eqb_spec (hd_finished h) 1); cbn [orb]; lia).
  set (ver := if hd_twoway h then 131 else 3) in *.
  assert (VB: ver = 3 \/ ver = 131) by (unfold ver; destruct (hd_twoway h); auto).
  assert (GL: length (f ++ tail) = (length f + length tail)%nat) by apply app_length.
  set (g := f ++ tail) in *.
  assert (GE: g = magic ++ be_enc 4 ver ++ be_enc 4 fin ++ be_enc 4 (hd_next h) ++ be_enc 4 (hd_nskip h) ++ be_enc 4 (hd_ndata h) ++
    be_enc 8 (u64 oskip) ++ be_enc 8 (u64 odata) ++ pre ++ sl ++ zeros 16 ++ tail).
  { unfold g. rewrite FE. rewrite <- !app_assoc. reflexivity. }
  assert (E0: sub 0 4 g = magic) by (rewrite GE; apply sub_whole; reflexivity).
  assert (LM: length magic = 4%nat) by reflexivity.
  assert (E4: sub 4 4 g = be_enc 4 ver) by (rewrite GE; rewrite sub_app_r by (rewrite LM; lia); rewrite LM; apply sub_whole; apply be_enc_length).
  assert (E8: sub 8 4 g = be_enc 4 fin) by (rewrite GE; do 2 (rewrite sub_app_r by (rewrite ?LM, ?be_enc_length; lia)); rewrite LM, be_enc_length; apply sub_whole; apply be_enc_length).
  assert (E12: sub 12 4 g = be_enc 4 (hd_next h)) by (rewrite GE; do 3 (rewrite sub_app_r by (rewrite ?LM, ?be_enc_length; lia)); rewrite LM, !be_enc_length; apply sub_whole; apply be_enc_length).
  assert (E16: sub 16 4 g = be_enc 4 (hd_nskip h)) by (rewrite GE; do 4 (rewrite sub_app_r by (rewrite ?LM, ?be_enc_length; lia)); rewrite LM, !be_enc_length; apply sub_whole; apply be_enc_length).
  assert (E20: sub 20 4 g = be_enc 4 (hd_ndata h)) by (rewrite GE; do 5 (rewrite sub_app_r by (rewrite ?LM, ?be_enc_length; lia)); rewrite LM, !be_enc_length; apply sub_whole; apply be_enc_length).
  assert (E24: sub 24 8 g = be_enc 8 (u64 oskip)) by (rewrite GE; do 6 (rewrite sub_app_r by (rewrite ?LM, ?be_enc_length; lia)); rewrite LM, !be_enc_length; apply sub_whole; apply be_enc_length).
  assert (E32: sub 32 8 g = be_enc 8 (u64 odata)) by (rewrite GE; do 7 (rewrite sub_app_r by (rewrite ?LM, ?be_enc_length; lia)); rewrite LM, !be_enc_length; apply sub_whole; apply be_enc_length).
  assert (E40: sub 40 112 g = pre) by (rewrite GE; do 8 (rewrite sub_app_r by (rewrite ?LM, ?be_enc_length; lia)); rewrite LM, !be_enc_length; apply sub_whole; exact PL).
  assert (U: forall x, 0 <= x < 2^63 -> off_t (be_dec (be_enc 8 (u64 x))) = x).
  { intros x X. unfold u64. change (2^63) with 9223372036854775808 in X. rewrite Z.mod_small by lia. rewrite enc_dec64 by (change (2^64) with 18446744073709551616; lia).
    apply off_t_small. exact X. }
  intros D0 D1 D2.
  pose proof (initial_v3 g ver ltac:(lia) E0 ltac:(rewrite E4; apply enc_dec32; change (2^32) with 4294967296; lia) VB) as RI.
  rewrite E8, E12, E16, E20, E24, E32, !U in RI by assumption.
  rewrite !enc_dec32 in RI by (try assumption; change (2^32) with 4294967296; lia).
  assert (FT: finished_type fin = fin) by (unfold finished_type; destruct FB as [X|[X|X]]; rewrite X; reflexivity). rewrite FT in RI.
  assert (RL: (if ver =? 3 then 25 else 50) = rec_len (hd_twoway h)) by (unfold ver, rec_len; destruct (hd_twoway h); reflexivity). rewrite RL in RI.
  assert (RP: 0 < rec_len (hd_twoway h)) by (unfold rec_len; destruct (hd_twoway h); lia).
  assert (TW: negb (Z.land ver 128 =? 0) = hd_twoway h) by (unfold ver; destruct (hd_twoway h); reflexivity).
  assert (Q: Z.quot (Z.of_nat (length g) - odata) (rec_len (hd_twoway h)) = (Z.of_nat (length tail) - 8 * hd_nskip h) / rec_len (hd_twoway h)).
  { rewrite Z.quot_div_nonneg by lia. f_equal. lia. }
  assert (FR: fread 40 112 g = Some pre) by (unfold fread; destruct (Nat.ltb_spec (length g) (40 + 112)); [lia|rewrite E40; reflexivity]).
  assert (V2: (2 <=? ver) = true /\ (ver =? 2) = false) by (unfold ver; destruct (hd_twoway h); split; reflexivity).
  exists (mkHdr ver (rec_len (hd_twoway h)) (hd_twoway h) fin (hd_next h) (hd_nskip h)
    (if (hd_finished h =? 1) && negb (hd_twoway h) then hd_ndata h else (Z.of_nat (length tail) - 8 * hd_nskip h) / rec_len (hd_twoway h))
    oskip odata (hd_sender h) (hd_receiver h) (if hd_twoway h then true else hd_csender h) (hd_creceiver h) (hd_sid h)
    (mkTSpec (ts_start (hd_spec h)) (ts_timeout (hd_spec h)) (ts_typeP (hd_spec h)) (ts_padding (hd_spec h)) (ts_npackets (hd_spec h)) (ts_nslots (hd_spec h)) None)).
  cbn [hd_version hd_recsize hd_twoway hd_finished hd_next hd_nskip hd_ndata hd_oskip hd_odata hd_sender hd_receiver hd_csender hd_creceiver hd_sid hd_spec].
  split.
  { unfold read_header. rewrite RI. cbn [ih_version ih_recsize ih_hdrlen ih_finished ih_next ih_nskip ih_ndata ih_oskip ih_odata ih_size ih_header].
    destruct V2 as (V2 & V2'). rewrite V2, V2'. rewrite FR, decode_preamble_socklen, PD. cbn [p_sender p_receiver p_conf_sender p_conf_receiver p_sid p_start p_timeout p_typeP p_padding p_npackets p_nslots].
    destruct (Z.ltb_spec odata 0); [lia|]. rewrite Q, TW.
    destruct (Z.ltb_spec ((Z.of_nat (length tail) - 8 * hd_nskip h) / rec_len (hd_twoway h)) (hd_ndata h)); [lia|].
    do 3 f_equal. unfold FIN_NORMAL, fin.
    destruct (Z.eqb_spec (hd_finished h) 1) as [X|X].
    - rewrite X. cbn [orb andb negb Z.eqb]. rewrite Pos.eqb_refl. cbn [negb orb]. destruct (hd_twoway h); cbn [negb]; [apply Z.mod_small; change (2^32) with 4294967296 in D2; lia|reflexivity].
    - assert ((if (hd_finished h =? 0) || false then hd_finished h else 2) =? 1 = false) as ->.
      { destruct (Z.eqb_spec (hd_finished h) 0); cbn [orb]; lia. }
      cbn [negb orb andb]. apply Z.mod_small; change (2^32) with 4294967296 in D2. split; [apply Z.div_pos; lia|lia]. }
  split; [exact OD|].
  split; [intros X; unfold oskip; destruct (Z.eqb_spec (hd_nskip h) 0); cbn [negb]; lia|].
  split; [intros X Y Y' V; unfold oskip; clear - FL N2 N3 X Y Y' V; destruct (Z.eqb_spec (hd_nskip h) 0); [|lia]; destruct (Z.eqb_spec (hd_ndata h) 0); [lia|]; cbn [negb];
    rewrite Z.mod_small by (change (2^32) with 4294967296 in V; nia); lia|].
  split; [intros X Y; unfold oskip; rewrite X, Y; reflexivity|].
  repeat match goal with |- _ /\ _ => split end; try reflexivity.
  unfold read_header_slots. rewrite RI. cbn [ih_version ih_hdrlen ih_oskip ih_odata].
  destruct V2 as (V2 & V2'). assert (V3: ver <? 2 = false) by lia. rewrite V3, V2'.
  assert (HOFF: (if Z.min oskip odata =? 0 then Z.max oskip odata else Z.min oskip odata) = Z.of_nat (length f)).
  { unfold oskip, odata. clear - FL N2 N3. pose proof (Z.mod_pos_bound (hd_ndata h * hd_recsize h) 4294967296 ltac:(lia)).
    destruct (Z.eqb_spec (hd_nskip h) 0); destruct (Z.eqb_spec (hd_ndata h) 0); cbn [negb];
    match goal with |- (if ?a =? 0 then _ else _) = _ => destruct (Z.eqb_spec a 0) end; lia. }
  rewrite HOFF. change (2^28) with 268435456 in NSL.
  assert (B: u32 (Z.of_nat (length f) - 152) = 16 * (Z.of_nat (length slots) + 1)) by (unfold u32; rewrite Z.mod_small by lia; lia).
  rewrite B. assert (B1: (16 * (Z.of_nat (length slots) + 1)) mod 16 =? 0 = true) by lia. rewrite B1. cbn [negb].
  assert (B2: u32 (16 * (Z.of_nat (length slots) + 1) / 16 - 1) =? ts_nslots (hd_spec h) = true) by (unfold u32; rewrite Z.mod_small; lia).
  rewrite B2. cbn [negb]. rewrite NS, Nat2Z.id. change (Z.to_nat 152) with 152%nat.
  pose proof (SLD (magic ++ be_enc 4 ver ++ be_enc 4 fin ++ be_enc 4 (hd_next h) ++ be_enc 4 (hd_nskip h) ++ be_enc 4 (hd_ndata h) ++
    be_enc 8 (u64 oskip) ++ be_enc 8 (u64 odata) ++ pre) (zeros 16 ++ tail) g) as DS.
  rewrite !app_length, !be_enc_length, PL, LM in DS. cbn [Nat.add] in DS.
  rewrite DS by (rewrite GE, <- !app_assoc; reflexivity).
  unfold fread. destruct (Nat.ltb_spec (length g) (152 + 16 * length slots + 16)); [lia|].
  assert (EZ: sub (152 + 16 * length slots) 16 g = zeros 16).
  { rewrite GE. clear - PL SLL LM. do 8 (rewrite sub_app_r by (rewrite ?LM, ?be_enc_length; lia)). rewrite LM, !be_enc_length.
    rewrite sub_app_r by (rewrite PL; lia). rewrite sub_app_r by (rewrite SLL, PL; lia). rewrite SLL, PL.
    replace (152 + 16 * length slots - 4 - 4 - 4 - 4 - 4 - 4 - 8 - 8 - 112 - 16 * length slots)%nat with 0%nat by lia.
    apply sub_whole, zeros_length. }
  rewrite EZ, eqb_octets_refl. reflexivity.
Qed.
