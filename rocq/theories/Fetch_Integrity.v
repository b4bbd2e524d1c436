(** Proofs about the codes in the answer to a fetch (C81). *)
From Coq Require Import ZArith List Bool Lia ZifyBool ZifyNat.
From Verif Require Import Base BaseLemmas Sched_Model Wire_Model Wire_Spec Wire_Proofs Puts Control_Model Control_Spec Control_Proofs Control_Integrity
  File_Model Fetch_Model Fetch_Spec.
Import ListNotations.
Open Scope Z_scope.
Ltac Zify.zify_post_hook ::= Z.div_mod_to_equations.

Section I.
Variable E D H : list Z -> list Z -> list Z.
Hypothesis BC : block_cipher E D.
Hypothesis BD : blocks16 D.
Hypothesis OD : forall k b, octets b -> octets (D k b).

Lemma lxor_octet : forall a b, is_u8 a -> is_u8 b -> is_u8 (Z.lxor a b).
Proof.
  unfold is_u8. intros a b A B. assert (0 <= Z.lxor a b) by (apply Z.lxor_nonneg; lia). split; [lia|].
  destruct (Z.eq_dec (Z.lxor a b) 0) as [->|N]; [lia|].
  change 256 with (2^8). apply Z.log2_lt_pow2; [lia|]. pose proof (Z.log2_lxor a b ltac:(lia) ltac:(lia)).
  assert (Z.log2 a < 8). { destruct (Z.eq_dec a 0) as [->|]; [cbn; lia|]. apply Z.log2_lt_pow2; [lia|]. change (2^8) with 256. lia. }
  assert (Z.log2 b < 8). { destruct (Z.eq_dec b 0) as [->|]; [cbn; lia|]. apply Z.log2_lt_pow2; [lia|]. change (2^8) with 256. lia. }
  lia.
Qed.

Lemma xor_oct : forall a b, octets a -> octets b -> octets (xor_octets a b).
Proof.
  induction a as [|x a IH]; intros b A B; destruct b as [|y b]; cbn [xor_octets]; try constructor; inversion A; inversion B; subst.
  - now apply lxor_octet.
  - now apply IH.
Qed.

Lemma oct_firstn : forall n l, octets l -> octets (firstn n l).
Proof. induction n as [|n IH]; intros l O; destruct l; cbn [firstn]; try constructor; inversion O; subst; auto; apply IH; auto. Qed.
Lemma oct_skipn : forall n l, octets l -> octets (skipn n l).
Proof. induction n as [|n IH]; intros l O; destruct l; cbn [skipn]; auto; inversion O; subst; apply IH; auto. Qed.

Lemma cbc_dec_oct : forall n k iv l, octets iv -> octets l -> octets (fst (cbc_dec D k iv n l)).
Proof.
  induction n as [|n IH]; intros k iv l I L; cbn [cbc_dec]; [constructor|].
  specialize (IH k (firstn 16 l) (skipn 16 l) (oct_firstn _ _ L) (oct_skipn _ _ L)).
  destruct (cbc_dec D k (firstn 16 l) n (skipn 16 l)) as [p iv']. cbn [fst] in *. apply Forall_app. split; auto.
  apply xor_oct; auto. apply OD. now apply oct_firstn.
Qed.

Lemma field_nonneg : forall m off len, octets m -> 0 <= field m off len.
Proof.
  intros m off len O. unfold field. assert (OO: octets (octs_at m off len)) by (unfold octs_at; apply oct_firstn, oct_skipn, O).
  revert OO. generalize (octs_at m off len). intros l OO. rewrite number_be. apply be_dec_bound in OO. lia.
Qed.

Notation took := (took D).

(** ** the parts behind the request *)
Lemma ciph : forall base s i, took base s i -> ciphers base = true -> ciphers s = true.
Proof. intros base s i T C. unfold ciphers in *. destruct T as (_ & _ & _ & -> & _). exact C. Qed.

Lemma blocks_took : forall base s i n a s', wf base -> ciphers base = true -> took base s i -> rhm s = rhm base ++ incoming D base i -> (n <= 25)%nat ->
  take_blocks D s n = (Some a, s') ->
  took base s' (i + n) /\ rhm s' = rhm base ++ incoming D base (i + n) /\ incoming D base (i + n) = incoming D base i ++ a /\ length a = (16 * n)%nat.
Proof.
  intros base s i n a s' W C T RH N R. unfold take_blocks in R.
  destruct (recv_blocks D s 0 n) as [[| |] c1] eqn:RB; try discriminate R.
  destruct (recv_took D BD base s i 0 n c1 W T C ltac:(lia) RB) as (A1 & A2 & _ & A3 & _).
  assert (AE: a = sub 0 (16 * n) (msg c1)) by congruence. assert (SE: s' = set_msg (rhm_add c1 0 n) (msg s)) by congruence. subst a s'.
  assert (CC: ciphers c1 = true) by exact (ciph _ _ _ A1 C).
  split.
  { pose proof (took_rhm D _ _ _ 0 n A1) as (B1 & B2 & B3 & B4 & B5 & B6 & B7 & (B8 & B9 & B10) & B11).
    unfold Control_Integrity.took. cproj. repeat match goal with |- _ /\ _ => split end; auto. unfold wf. cproj. repeat split; auto. apply T. }
  split; [|split; [exact A2|]].
  - cproj. unfold rhm_add. rewrite CC. cproj. rewrite A3, RH, A2. now rewrite app_assoc.
  - rewrite sub_length; [reflexivity|]. assert (length (msg c1) = 400%nat) by apply A1. lia.
Qed.

Lemma groups_took : forall k n base s i a s', wf base -> ciphers base = true -> took base s i -> rhm s = rhm base ++ incoming D base i -> (n <= 25)%nat ->
  take_groups D s k n = (Some a, s') ->
  took base s' (i + k * n) /\ rhm s' = rhm base ++ incoming D base (i + k * n) /\ incoming D base (i + k * n) = incoming D base i ++ a /\ length a = (16 * (k * n))%nat.
Proof.
  induction k as [|k IH]; intros n base s i a s' W C T RH N R; cbn [take_groups] in R.
  - inversion R; subst. cbn [Nat.mul]. rewrite Nat.add_0_r, app_nil_r. auto.
  - destruct (take_blocks D s n) as [[x|] c1] eqn:B; [|discriminate R].
    destruct (take_groups D c1 k n) as [[l|] c2] eqn:G; [|discriminate R].
    assert (AE: a = x ++ l) by congruence. assert (SE: s' = c2) by congruence. subst a s'.
    destruct (blocks_took base s i n x c1 W C T RH N B) as (A1 & A2 & A3 & A4).
    destruct (IH n base c1 (i + n)%nat l c2 W C A1 A2 N G) as (B1 & B2 & B3 & B4).
    replace (i + S k * n)%nat with (i + n + k * n)%nat by lia. split; [exact B1|]. split; [exact B2|]. split.
    + rewrite B3, A3. now rewrite app_assoc.
    + rewrite app_length, A4, B4. lia.
Qed.

Lemma firstn_part : forall (a l : list Z) n r, length a = (16 * n)%nat -> firstn (16 * n + r) (a ++ l) = a ++ firstn r l.
Proof. intros a l n r L. rewrite firstn_app, L. replace (16 * n + r - 16 * n)%nat with r by lia. rewrite firstn_all2 by lia. reflexivity. Qed.

Lemma skips_took : forall base nsk a s', wf base -> ciphers base = true -> 
  take_skips D base nsk = (Some a, s') ->
  exists k, let size := Z.to_nat (u32 (nsk * 8)) in
    took base s' k /\ rhm s' = rhm base ++ incoming D base k /\ a = firstn size (incoming D base k) /\ (size <= 16 * k < size + 16)%nat.
Proof.
  intros base nsk a s' W C R. unfold take_skips in R. set (size := u32 (nsk * 8)) in *.
  assert (SZ: 0 <= size). { unfold size, u32. apply Z.mod_pos_bound. reflexivity. }
  assert (WB: 0 <= whole_blocks size /\ 0 <= size - 16 * whole_blocks size <= 16 /\ (size - 16 * whole_blocks size = 0 -> size = 0 /\ whole_blocks size = 0)).
  { unfold whole_blocks. clearbody size. clear -SZ. destruct (Z.ltb_spec 16 size) as [X|X]; [|lia]. assert (16 * ((size - 1) / 16) <= size - 1 < 16 * ((size - 1) / 16) + 16) by (pose proof (Z.div_mod (size - 1) 16); pose proof (Z.mod_pos_bound (size - 1) 16); lia). lia. }
  set (n := whole_blocks size) in *.
  destruct (take_groups D base (Z.to_nat n) 1) as [[x|] c1] eqn:G; [|discriminate R].
  assert (RH0: rhm base = rhm base ++ incoming D base 0) by (rewrite incoming_0, app_nil_r; reflexivity).
  destruct (groups_took (Z.to_nat n) 1 base base 0 x c1 W C (took_refl D base W) RH0 ltac:(lia) G) as (A1 & A2 & A3 & A4).
  rewrite Nat.mul_1_r in *. cbn [plus] in *. rewrite incoming_0 in A3. cbn [app] in A3.
  destruct (size - 16 * n =? 0) eqn:RZ.
  - apply Z.eqb_eq in RZ. destruct WB as (_ & _ & WB). destruct (WB RZ) as (S0 & N0).
    assert (AE: a = x) by congruence. assert (SE: s' = c1) by congruence. subst a s'.
    exists (Z.to_nat n). cbv zeta. split; [exact A1|]. split; [exact A2|]. rewrite A3. rewrite S0, N0 in *. cbn in A4 |- *.
    split; [|lia]. destruct x; [reflexivity|cbn in A4; lia].
  - apply Z.eqb_neq in RZ. destruct (take_blocks D c1 1) as [[l|] c2] eqn:B; [|discriminate R].
    assert (AE: a = x ++ firstn (Z.to_nat (size - 16 * n)) l) by congruence. assert (SE: s' = c2) by congruence. subst a s'.
    destruct (blocks_took base c1 (Z.to_nat n) 1 l c2 W C A1 A2 ltac:(lia) B) as (B1 & B2 & B3 & B4).
    exists (Z.to_nat n + 1)%nat. cbv zeta. split; [exact B1|]. split; [exact B2|]. rewrite B3, A3. split; [|lia].
    replace (Z.to_nat size) with (16 * Z.to_nat n + Z.to_nat (size - 16 * n))%nat by lia.
    rewrite firstn_part by exact A4. reflexivity.
Qed.

Lemma records_took : forall base nd a s', wf base -> ciphers base = true -> 0 <= nd ->
  take_records D base nd = (Some a, s') ->
  exists k, let size := Z.to_nat (25 * nd) in
    took base s' k /\ rhm s' = rhm base ++ incoming D base k /\ a = firstn size (incoming D base k) /\ (size <= 16 * k < size + 17)%nat.
Proof.
  intros base nd a s' W C N R. unfold take_records in R.
  destruct (take_groups D base (Z.to_nat (nd / 16)) 25) as [[x|] c1] eqn:G; [|discriminate R].
  assert (RH0: rhm base = rhm base ++ incoming D base 0) by (rewrite incoming_0, app_nil_r; reflexivity).
  destruct (groups_took (Z.to_nat (nd / 16)) 25 base base 0 x c1 W C (took_refl D base W) RH0 ltac:(lia) G) as (A1 & A2 & A3 & A4).
  cbn [plus] in *. rewrite incoming_0 in A3. cbn [app] in A3.
  destruct (nd mod 16 =? 0) eqn:RZ.
  - apply Z.eqb_eq in RZ. assert (AE: a = x) by congruence. assert (SE: s' = c1) by congruence. subst a s'.
    exists (Z.to_nat (nd / 16) * 25)%nat. cbv zeta. split; [exact A1|]. split; [exact A2|]. rewrite A3.
    split; [|lia]. rewrite firstn_all2; [reflexivity|]. rewrite A4. lia.
  - apply Z.eqb_neq in RZ. destruct (take_blocks D c1 (Z.to_nat (nd mod 16 * 25 / 16 + 1))) as [[l|] c2] eqn:B; [|discriminate R].
    assert (AE: a = x ++ firstn (25 * Z.to_nat (nd mod 16)) l) by congruence. assert (SE: s' = c2) by congruence. subst a s'.
    destruct (blocks_took base c1 (Z.to_nat (nd / 16) * 25)%nat (Z.to_nat (nd mod 16 * 25 / 16 + 1)) l c2 W C A1 A2 ltac:(lia) B) as (B1 & B2 & B3 & B4).
    exists (Z.to_nat (nd / 16) * 25 + Z.to_nat (nd mod 16 * 25 / 16 + 1))%nat. cbv zeta. split; [exact B1|]. split; [exact B2|]. rewrite B3, A3. split; [|lia].
    replace (Z.to_nat (25 * nd)) with (16 * (Z.to_nat (nd / 16) * 25) + 25 * Z.to_nat (nd mod 16))%nat by lia.
    rewrite firstn_part by exact A4. reflexivity.
Qed.

Lemma code_took : forall base s k s', wf base -> ciphers base = true -> took base s k -> rhm s = rhm base ++ incoming D base k ->
  take_code D H s = (true, s') ->
  took base s' (k + 1) /\ rhm s' = [] /\ coded H (hkey base) (rhm base) (incoming D base (k + 1)) (16 * k).
Proof.
  intros base s k s' W C T RH R. unfold take_code in R. destruct (recv_blocks D s 0 1) as [[| |] c1] eqn:RB; try discriminate R.
  destruct (code_after D BD H base s k c1 W C T RH RB) as (B1 & B2).
  destruct (rhm_check H c1 0) as [ok c2] eqn:CH. cbn [fst] in B2. assert (ok = true) by congruence. subst ok.
  assert (s' = set_msg c2 (msg s)) by congruence. subst s'.
  assert (CC: ciphers c1 = true) by exact (ciph _ _ _ B1 C). unfold rhm_check in CH. rewrite CC in CH.
  assert (c2 = set_rhm c1 []) by congruence. subst c2.
  split; [|split; [reflexivity|now apply B2]].
  destruct B1 as (B1 & B3 & B4 & B5 & B6 & B7 & B8 & (B9 & B10 & B11) & B12). unfold Control_Integrity.took. cproj. repeat match goal with |- _ /\ _ => split end; auto.
  unfold wf. cproj. repeat split; auto. apply T.
Qed.

(** ** the request of the session in the answer *)
Lemma octs_app_l : forall (a b : list Z) o n, (o + n <= length a)%nat -> octs_at (a ++ b) o n = octs_at a o n.
Proof.
  intros a b o n L. unfold octs_at. rewrite skipn_app, firstn_app, skipn_length.
  replace (n - (length a - o))%nat with 0%nat by lia. now rewrite firstn_O, app_nil_r.
Qed.
Lemma octs_app_r : forall (a b : list Z) o n, octs_at (a ++ b) (length a + o) n = octs_at b o n.
Proof. intros a b o n. unfold octs_at. rewrite skipn_app, skipn_all2 by lia. cbn [app]. do 2 f_equal. lia. Qed.

Lemma slots_decoded : forall n s l s', wf s -> ciphers s = true -> read_slots_loop D s n true = (Some l, s') ->
  took s s' n /\ forall j x, nth_error l j = Some x -> decode_slot (octs_at (incoming D s n) (16 * j) 16) = Some x.
Proof.
  induction n as [|n IH]; intros s l s' W C R; cbn [read_slots_loop] in R.
  - inversion R; subst. split; [now apply took_refl|]. intros [|j] x N; discriminate N.
  - destruct (recv_blocks D s 0 1) as [[| |] c] eqn:RB; try discriminate R.
    destruct (recv_took D BD s s 0 0 1 c W (took_refl D s W) C ltac:(lia) RB) as (A1 & A2 & _). cbn [plus] in *. rewrite incoming_0 in A2. cbn [app] in A2.
    pose proof (took_rhm D _ _ _ 0 1 A1) as A3.
    destruct (decode_slot (sub 0 16 (msg (rhm_add c 0 1)))) as [y|] eqn:DS; [|discriminate R].
    destruct (read_slots_loop D (rhm_add c 0 1) n true) as [[l0|] c2] eqn:RL; [|discriminate R].
    assert (LE: l = y :: l0) by congruence. assert (SE: s' = c2) by congruence. subst l s'.
    destruct (IH (rhm_add c 0 1) l0 c2 ltac:(apply A3) (ciph _ _ _ A3 C) RL) as (B1 & B2).
    destruct (took_trans D s (rhm_add c 0 1) 1 n c2 A3 B1) as (U1 & U2). { intros q. apply B1, A3, q. }
    split; [exact U1|]. change (S n) with (1 + n)%nat. rewrite U2.
    pose proof (incoming_len D BD s c 1 W A1) as L1. intros [|j] x N; cbn [nth_error] in N.
    + assert (x = y) by congruence. subst x. rewrite octs_app_l by (rewrite L1; lia). rewrite A2.
      rewrite (proj1 (rhm_msg _ _ _)) in DS. change (16 * 1)%nat with 16%nat. unfold octs_at. change (16 * 0)%nat with 0%nat. cbn [skipn].
      replace (firstn 16 (sub 0 16 (msg c))) with (sub 0 16 (msg c)); [exact DS|]. symmetry. apply firstn_all2. unfold sub. rewrite firstn_length. lia.
    + replace (16 * S j)%nat with (length (incoming D s 1) + 16 * j)%nat by (rewrite L1; lia). rewrite octs_app_r. apply B2, N.
Qed.

Lemma request_took : forall s al sl rc q a s', wf s -> ciphers s = true -> twoway s = false ->
  read_test_request D H s false al sl = (rc, q, a, s') -> rc = ErrOK ->
  coded H (hkey s) (rhm s) (incoming D s 7) 96 /\
  exists p l, decode_preamble false (incoming D s 7) 112 false 128 = PreOK p /\
    q = Some (mkReq (p_sender p) (p_receiver p) (p_conf_sender p) (p_conf_receiver p) (p_sid p)
            (mkTSpec (p_start p) (p_timeout p) (p_typeP p) (p_padding p) (p_npackets p) (p_nslots p) (Some l))) /\
    length l = Z.to_nat (p_nslots p) /\ exists cb, took s cb 7 /\
    took cb s' (length l + 1) /\ rhm s' = [] /\
    coded H (hkey s) [] (incoming D cb (length l + 1)) (16 * length l) /\
    (forall j x, nth_error l j = Some x -> decode_slot (octs_at (incoming D cb (length l + 1)) (16 * j) 16) = Some x).
Proof.
  intros s al sl rc q a s' W C TWs R ->. unfold read_test_request in R.
  destruct (negb _); [discriminate R|]. cbn [negb] in R.
  destruct (recv_blocks D s 0 1) as [[| |] ca] eqn:R1; try discriminate R.
  destruct (recv_took D BD s s 0 0 1 ca W (took_refl D s W) C ltac:(lia) R1) as (Ta & Ia & _ & Ha & _). cbn [plus] in *. rewrite incoming_0 in Ia. cbn [app] in Ia.
  destruct (recv_blocks D ca 16 6) as [[| |] c] eqn:RB; try discriminate R.
  change (16 * 1)%nat with 16%nat in Ia.
  destruct (request_rest D BD H s ca 6 c W C Ta (eq_sym Ia) Ha ltac:(lia) ltac:(lia) RB) as (K1 & K2 & K3). change (6 + 1)%nat with 7%nat in *.
  change (16 * 6 + 16)%nat with 112%nat in *. change (16 * 6)%nat with 96%nat in *.
  destruct (rhm_check H (rhm_add c 0 6) 96) as [bb c1] eqn:CH. cbn [fst] in K1.
  destruct bb; cbn [negb] in R; [|discriminate R].
  split; [now apply K1|].
  assert (C1: took s c1 7 /\ rhm c1 = [] /\ msg c1 = msg c).
  { assert (CC: ciphers c = true) by exact (ciph _ _ _ K3 C).
    unfold rhm_check, rhm_add in CH. rewrite CC in CH.
    change (ciphers (set_rhm c (rhm c ++ sub 0 (16 * 6) (msg c)))) with (ciphers c) in CH. rewrite CC in CH.
    assert (X: c1 = set_rhm (set_rhm c (rhm c ++ sub 0 (16 * 6) (msg c))) []) by congruence. subst c1. split; [exact K3|]. split; reflexivity. }
  destruct C1 as (C1 & C2 & C3).
  assert (TW1: twoway c1 = false) by (destruct C1 as (_ & _ & _ & _ & -> & _); exact TWs).
  rewrite TW1 in R. rewrite C3 in R. rewrite K2 in R.
  destruct (decode_preamble false (incoming D s 7) 112 false 128) as [p| |] eqn:DP; try discriminate R.
  destruct (negb (ll_scope_ok (remote c1) (p_sender p))); [discriminate R|].
  destruct (negb (ll_scope_ok (remote c1) (p_receiver p))); [discriminate R|].
  destruct (negb al); [discriminate R|]. cbv zeta in R.
  change (twoway (or_st (clr_st c1 StTestRequest) StTestRequestSlots)) with (twoway c1) in R. rewrite TW1 in R.
  set (cb := or_st (clr_st c1 StTestRequest) StTestRequestSlots) in *.
  assert (CB: took s cb 7) by exact C1.
  assert (Wb: wf cb) by apply CB.
  assert (Cb: ciphers cb = true) by exact (ciph _ _ _ CB C).
  assert (Rb: rhm cb = []) by exact C2.
  set (keep := sl || (p_nslots p <=? 10)) in *.
  unfold read_slots in R.
  destruct (negb (is_st StTestRequestSlots cb)); [discriminate R|].
  destruct (read_slots_loop D cb (Z.to_nat (p_nslots p)) keep) as [[l|] c3] eqn:RL; [|discriminate R].
  destruct (slots_took D BD _ cb cb 0 keep l c3 Wb Cb (took_refl D cb Wb) ltac:(rewrite incoming_0, app_nil_r; auto) RL) as (B1 & B2 & B3).
  cbn [plus] in B1, B2.
  destruct (recv_blocks D c3 0 1) as [r4 c4] eqn:RB4. destruct r4; try discriminate R.
  destruct (code_after D BD H cb c3 _ c4 Wb Cb B1 B2 RB4) as (B4 & B5).
  destruct (rhm_check H c4 0) as [ok c5] eqn:CH5. cbn [fst] in B5. destruct ok; [|discriminate R].
  destruct keep eqn:KE; [|discriminate R].
  specialize (B3 eq_refl). exists p, l. split; [reflexivity|]. split; [congruence|]. split; [exact B3|].
  assert (SE: s' = or_st (clr_st c5 StTestRequestSlots) StFetching) by congruence. subst s'.
  rewrite <- B3 in *.
  exists cb. split; [exact CB|].
  assert (C4: ciphers c4 = true) by exact (ciph _ _ _ B4 Cb). unfold rhm_check in CH5. rewrite C4 in CH5.
  assert (C5: c5 = set_rhm c4 []) by congruence. subst c5.
  split; [exact B4|]. split; [reflexivity|].
  assert (HK: hkey cb = hkey s) by apply CB. rewrite <- HK.
  pose proof (proj1 B5 eq_refl) as B6. rewrite Rb in B6. split; [exact B6|].
  intros j x N. destruct (slots_decoded _ cb l c3 Wb Cb RL) as (S1 & S2).
  assert (JL: (j < length l)%nat) by (apply nth_error_Some; congruence).
  destruct (recv_took D BD cb c3 _ 0 1 c4 Wb B1 Cb ltac:(lia) RB4) as (_ & I4 & _). rewrite I4.
  rewrite octs_app_l. { apply S2, N. }
  rewrite (incoming_len D BD cb c3 _ Wb B1). lia.
Qed.

(** ** sending the command leaves the receiving side alone *)
Lemma fetch_sent : forall c b e sid rc c1, wf c -> ciphers c = true -> (length sid <= 16)%nat ->
  write_fetch E H c b e sid = (rc, c1) -> (rc <? ErrWARNING) = false ->
  took c c1 0 /\ rhm c1 = rhm c /\ twoway c1 = false.
Proof.
  intros c b e sid rc c1 W C LS R Q. unfold write_fetch in R.
  destruct (negb (is_st StRequest c) || is_st StTest c). { inversion R; subst. discriminate. }
  destruct (twoway c) eqn:TW. { inversion R; subst. discriminate. }
  destruct W as (W1 & W2 & W3).
  set (m := put 16 sid _) in R. cbv zeta in R.
  assert (LM: length m = 400%nat).
  { unfold m. rewrite !put_length; rewrite ?put_length; rewrite ?put_length; rewrite ?put_length; rewrite ?put_length; rewrite ?be_enc_length; cbn [length zeros repeat]; rewrite ?be_enc_length; lia. }
  set (d := shm_digest H (shm_add (set_msg c m) 0 2) 32) in R.
  assert (DF: length (msg d) = 400%nat /\ inp d = inp c /\ riv d = riv c /\ wiv d = wiv c /\ rhm d = rhm c /\ mode d = mode c /\ twoway d = twoway c /\ key d = key c /\ hkey d = hkey c /\ io d = io c).
  { assert (LH: forall t, (length (firstn 16 (H (hkey c) t)) <= 16)%nat) by (intros; apply firstn_le_length).
    unfold d, shm_digest, shm_add. change (ciphers (set_msg c m)) with (ciphers c). rewrite C.
    change (ciphers (set_shm (set_msg c m) (shm (set_msg c m) ++ sub 0 (16 * 2) (msg (set_msg c m))))) with (ciphers c). rewrite C. cproj.
    repeat match goal with |- _ /\ _ => split end; auto. rewrite put_length; [exact LM|]. rewrite LM. match goal with |- context [firstn 16 (H (hkey c) ?t)] => specialize (LH t) end. lia. }
  destruct DF as (D1 & D2 & D3 & D4 & D5 & D6 & D7 & D8 & D9 & D10).
  destruct (send_blocks E d 0 3) as [[| |] c2] eqn:SB; try (inversion R; subst; discriminate).
  assert (SE: c1 = clr_st (or_st c2 (Z.lor StFetchAck StFetchSession)) StRequest) by congruence. subst c1.
  apply send_ok in SB; [|lia]. unfold after_send in SB.
  destruct (wire_len E D BC (ciphers d) 3 (key d) (wiv d) (sub 0 (16 * 3) (msg d)) ltac:(rewrite sub_length; lia) ltac:(congruence)) as (L1 & L2).
  rewrite D8 in L1, L2. subst c2. unfold Control_Integrity.took. cproj. rewrite D2, D3, D5, D6, D7, D8, D9, D10. change (16 * 0)%nat with 0%nat. cbn [skipn firstn cbc_dec snd].
  assert (CI: snd (cbc_dec D (key c) (riv c) 0 []) = riv c) by reflexivity.
  split; [|split; [reflexivity|exact TW]].
  repeat match goal with |- _ /\ _ => split end; auto; try lia.
  - unfold wf. cproj. rewrite put_length by (rewrite D1, L1; lia). rewrite D3. auto.
  - unfold quiet. cproj. intros Q0. destruct (io c); [exact Q0|]. now inversion Q0.
Qed.

(** the octets of [n] blocks of the input, behind the first [i] *)
Lemma piece_of : forall c s s' i n, wf c -> took c s i -> took s s' n -> piece D c i n = incoming D s n /\ took c s' (i + n).
Proof.
  intros c s s' i n W T1 T2. destruct (took_trans D c s i n s' T1 T2) as (U1 & U2). { intros q. apply T2, T1, q. }
  split; [|exact U1]. unfold piece. rewrite U2. pose proof (incoming_len D BD c s i W T1) as L.
  rewrite skipn_app, L, skipn_all2 by lia. rewrite Nat.sub_diag. reflexivity.
Qed.

Lemma fetch_authentic : forall junk al sl c b e sid n g c', wf c -> ciphers c = true -> octets (inp c) -> octets (riv c) -> (length sid <= 16)%nat ->
  fetch_session E D H junk al sl c b e sid = (ErrOK, n, g, c') -> g <> [] ->
  let ack := piece D c 0 2 in
  let nsk := field ack 8 4 in
  coded H (hkey c) (rhm c) ack 16 /\ field ack 0 1 = 0 /\ n = field ack 12 4 /\
  exists p slots hd k1 k2,
    (* the request, then its slots *)
    coded H (hkey c) [] (piece D c 2 7) 96 /\ decode_preamble false (piece D c 2 7) 112 false 128 = PreOK p /\
    length slots = Z.to_nat (p_nslots p) /\ coded H (hkey c) [] (piece D c 9 (length slots + 1)) (16 * length slots) /\
    (forall i x, nth_error slots i = Some x -> decode_slot (octs_at (piece D c 9 (length slots + 1)) (16 * i) 16) = Some x) /\
    (* the packets not sent, then the records *)
    let i1 := (10 + length slots)%nat in let i2 := (i1 + k1 + 1)%nat in
    coded H (hkey c) [] (piece D c i1 (k1 + 1)) (16 * k1) /\
    coded H (hkey c) [] (piece D c i2 (k2 + 1)) (16 * k2) /\
    (* what the file consists of *)
    write_header junk (mkHdr 0 0 false (field ack 1 1) (field ack 4 4) nsk n 0 0 (p_sender p) (p_receiver p) (p_conf_sender p) (p_conf_receiver p) (p_sid p)
       (mkTSpec (p_start p) (p_timeout p) (p_typeP p) (p_padding p) (p_npackets p) (p_nslots p) (Some slots))) = Some hd /\
    (Z.to_nat (u32 (nsk * 8)) <= 16 * k1)%nat /\ (25 * Z.to_nat n <= 16 * k2)%nat /\
    g = hd ++ octs_at (piece D c i1 k1) 0 (Z.to_nat (u32 (nsk * 8))) ++ octs_at (piece D c i2 k2) 0 (25 * Z.to_nat n) /\
    inp c' = skipn (16 * (i2 + k2 + 1)) (inp c).
Proof.
  intros junk al sl c b e sid n g c' W C OI OV LS R G. unfold fetch_session in R.
  destruct (twoway c); [discriminate R|].
  destruct (write_fetch E H c b e sid) as [r1 c1] eqn:WF. destruct (r1 <? ErrWARNING) eqn:Q1. { assert (g = []) by congruence. contradiction. }
  destruct (fetch_sent c b e sid r1 c1 W C LS WF Q1) as (T1 & RH1 & TW1).
  assert (W1: wf c1) by apply T1. assert (C1: ciphers c1 = true) by exact (ciph _ _ _ T1 C).
  assert (HK1: hkey c1 = hkey c) by apply T1.
  destruct (read_fetch_ack D H c1) as [[r2 [[[[a fin] next] nskips] ndata]] c2] eqn:RA.
  destruct (r2 <? ErrWARNING) eqn:Q2. { assert (g = []) by congruence. contradiction. }
  destruct (negb (a =? CNTRL_ACCEPT)) eqn:QA. { assert (g = []) by congruence. contradiction. }
  apply negb_false_iff, Z.eqb_eq in QA.
  assert (R2: r2 = ErrOK /\ took c1 c2 2 /\ rhm c2 = []).
  { clear R G. unfold read_fetch_ack in RA. destruct (negb (is_st StFetchAck c1)). { assert (r2 = ErrFATAL) by congruence. subst r2. discriminate. }
    destruct (recv_blocks D c1 0 2) as [[| |] x] eqn:RB; try (assert (r2 = ErrFATAL) by congruence; subst r2; discriminate).
    destruct (recv_took D BD c1 c1 0 0 2 x W1 (took_refl D c1 W1) C1 ltac:(lia) RB) as (A1 & _).
    assert (CX: ciphers x = true) by exact (ciph _ _ _ A1 C1).
    unfold rhm_check, rhm_add in RA. rewrite CX in RA. change (ciphers (set_rhm x (rhm x ++ sub 0 (16 * 1) (msg x)))) with (ciphers x) in RA. rewrite CX in RA.
    destruct (negb _). { assert (r2 = ErrFATAL) by congruence. subst r2. discriminate. }
    destruct (get_accept _ =? CNTRL_INVALID). { assert (r2 = ErrFATAL) by congruence. subst r2. discriminate. }
    split; [congruence|].
    match type of RA with (_, _, ?y) = _ => assert (EQ: c2 = y) by congruence end. rewrite EQ.
    match goal with |- context [if ?t then or_st ?u _ else _] => destruct t end; (split; [exact A1|reflexivity]). }
  destruct R2 as (-> & T2 & RH2).
  destruct (fetch_ack_checked D BD H c1 ErrOK a fin next nskips ndata c2 W1 C1 RA) as (K & _). destruct (K eq_refl) as (K0 & K1 & K2 & K3 & K4 & K5). clear K.
  destruct (piece_of c c1 c2 0 2 W T1 T2) as (P2 & U2). cbn [plus] in U2.
  assert (W2: wf c2) by apply T2. assert (C2: ciphers c2 = true) by exact (ciph _ _ _ T2 C1). assert (HK2: hkey c2 = hkey c) by apply U2.
  assert (TW2: twoway c2 = false). { destruct T2 as (_ & _ & _ & _ & -> & _). exact TW1. }
  destruct (read_test_request D H c2 false al sl) as [[[r3 q] a3] c3] eqn:RT. destruct q as [q|]. 2:{ assert (g = []) by congruence. contradiction. }
  destruct (negb (r3 =? ErrOK)) eqn:Q3. { assert (g = []) by congruence. contradiction. }
  apply negb_false_iff, Z.eqb_eq in Q3.
  destruct (request_took c2 al sl r3 (Some q) a3 c3 W2 C2 TW2 RT Q3) as (L0 & p & slots & L1 & L2 & L3 & cb & Tb & T3 & RH3 & L4 & L5). rewrite RH2 in L0.
  destruct (piece_of c c2 cb 2 7 W U2 Tb) as (Pb & Ub). cbn [plus] in Ub.
  destruct (piece_of c cb c3 9 _ W Ub T3) as (P3 & U3).
  assert (W3: wf c3) by apply T3. assert (C3: ciphers c3 = true) by exact (ciph _ _ _ U3 C). assert (HK3: hkey c3 = hkey c) by apply U3.
  assert (OA: octets (incoming D c1 2)).
  { rewrite <- P2. unfold piece. cbn [Nat.mul skipn plus]. unfold incoming. apply cbc_dec_oct; [exact OV|]. now apply oct_firstn. }
  assert (NN: 0 <= ndata) by (rewrite K5; now apply field_nonneg).
  cbv zeta in R.
  destruct (take_skips D c3 nskips) as [[skips|] c4] eqn:TS. 2:{ assert (g = []) by congruence. contradiction. }
  destruct (skips_took c3 nskips skips c4 W3 C3 TS) as (k1 & T4 & RH4 & S1 & S2). cbv zeta in S1.
  destruct (take_code D H c4) as [ok5 c5] eqn:TC5. destruct ok5. 2:{ assert (g = []) by congruence. contradiction. }
  destruct (code_took c3 c4 k1 c5 W3 C3 T4 RH4 TC5) as (T5 & RH5 & M5). rewrite RH3 in M5.
  destruct (piece_of c c3 c5 _ _ W U3 T5) as (P5 & U5). destruct (piece_of c c3 c4 _ _ W U3 T4) as (P4 & _).
  assert (W5: wf c5) by apply T5. assert (C5: ciphers c5 = true) by exact (ciph _ _ _ T5 C3). assert (HK5: hkey c5 = hkey c) by apply U5.
  destruct (take_records D c5 ndata) as [[recs|] c6] eqn:TR. 2:{ assert (g = []) by congruence. contradiction. }
  destruct (records_took c5 ndata recs c6 W5 C5 NN TR) as (k2 & T6 & RH6 & S3 & S4). cbv zeta in S3.
  destruct (take_code D H c6) as [ok7 c7] eqn:TC7. destruct ok7. 2:{ assert (g = []) by congruence. contradiction. }
  destruct (code_took c5 c6 k2 c7 W5 C5 T6 RH6 TC7) as (T7 & RH7 & M7). rewrite RH5 in M7.
  destruct (piece_of c c5 c7 _ _ W U5 T7) as (P7 & U7). destruct (piece_of c c5 c6 _ _ W U5 T6) as (P6 & _).
  rewrite P2. intros ack nsk. fold ack in K0, K1, K2, K3, K4, K5. fold nsk in K4.
  match type of R with context [write_header junk ?hh] => destruct (write_header junk hh) as [hd|] eqn:WH end. 2:{ assert (g = []) by congruence. contradiction. }
  assert (NE: n = ndata) by congruence. assert (GE: g = hd ++ skips ++ recs) by congruence.
  assert (SE: inp c' = inp c7). { match type of R with (_, _, _, ?y) = _ => assert (EQ: c' = y) by congruence end. rewrite EQ. reflexivity. }
  split; [rewrite <- HK1, <- RH1; exact K0|]. split; [rewrite <- K1; exact QA|]. split; [congruence|].
  exists p, slots, hd, k1, k2.
  split; [rewrite Pb, <- HK2; exact L0|]. split; [rewrite Pb; exact L1|]. split; [exact L3|].
  split; [rewrite P3, <- HK2; exact L4|]. split; [rewrite P3; exact L5|].
  replace (9 + (length slots + 1))%nat with (10 + length slots)%nat in * by lia. intros i1 i2. fold i1 in P4, P5, P6, P7, U7.
  replace (i1 + (k1 + 1))%nat with i2 in * by (unfold i2; lia).
  split; [rewrite P5, <- HK3; exact M5|]. split; [rewrite P7, <- HK5; exact M7|].
  assert (QE: q = mkReq (p_sender p) (p_receiver p) (p_conf_sender p) (p_conf_receiver p) (p_sid p)
            (mkTSpec (p_start p) (p_timeout p) (p_typeP p) (p_padding p) (p_npackets p) (p_nslots p) (Some slots))) by congruence.
  rewrite QE in WH. cbn [q_sender q_receiver q_conf_sender q_conf_receiver q_sid q_spec] in WH.
  split. { rewrite <- WH, NE, <- K2, <- K3, <- K4. reflexivity. }
  rewrite K4 in S1, S2. rewrite NE. split; [lia|]. split; [lia|]. split.
  - rewrite GE, S1, S3, P4, P6. unfold octs_at. cbn [skipn]. do 3 f_equal. lia.
  - rewrite SE. destruct U7 as (_ & -> & _). f_equal. lia.
Qed.
End I.
