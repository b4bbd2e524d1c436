From Coq Require Import ZArith List Bool Lia ZifyBool ZifyNat.
From Verif Require Import Base BaseLemmas Puts Arith_Model Arith_Proofs Time_Model Time_Proofs Wire_Model Wire_Spec Wire_Proofs
  Control_Model Control_Spec Control_Proofs File_Proofs Packet_Model Packet_Proofs Sender_Model Sender_Spec Receiver_Model Reflector_Model Reflector_Spec.
Import ListNotations.
Open Scope Z_scope.
Ltac Zify.zify_post_hook ::= Z.div_mod_to_equations.

Lemma xor_combine : forall a b, xor_octets a b = map (fun p => Z.lxor (fst p) (snd p)) (combine a b).
Proof. induction a; destruct b; cbn [xor_octets combine map fst snd]; auto. now rewrite IHa. Qed.

Lemma xor_octets_length : forall a b, length (xor_octets a b) = Nat.min (length a) (length b).
Proof. intros. rewrite xor_combine, map_length, combine_length. reflexivity. Qed.

Lemma unchained_dec : forall D k n iv l, (16 * n <= length l)%nat ->
  unchained D k iv n l = fst (cbc_dec D k iv n (firstn (16 * n) l)) ++ skipn (16 * n) l.
Proof.
  induction n; intros iv l L; [reflexivity|]. cbn [unchained cbc_dec]. rewrite <- xor_combine.
  rewrite firstn_firstn. replace (Nat.min 16 (16 * S n)) with 16%nat by lia.
  assert (S2: skipn 16 (firstn (16 * S n) l) = firstn (16 * n) (skipn 16 l)).
  { rewrite skipn_firstn_comm. f_equal. lia. }
  rewrite S2. rewrite IHn by (rewrite skipn_length; lia).
  destruct (cbc_dec D k (firstn 16 l) n (firstn (16 * n) (skipn 16 l))) as [r iv2]. cbn [fst]. rewrite <- app_assoc. do 2 f_equal.
  assert (K: forall a b (x : list Z), skipn a (skipn b x) = skipn (b + a) x).
  { intros a b. induction b; intros x; [reflexivity|]. destruct x; [now rewrite !skipn_nil|]. cbn [skipn plus]. apply IHb. }
  rewrite K. f_equal. lia.
Qed.

Lemma skipn_more : forall a b (x : list Z), skipn a (skipn b x) = skipn (b + a) x.
Proof. intros a b. induction b; intros x; [reflexivity|]. destruct x; [now rewrite !skipn_nil|]. cbn [skipn plus]. apply IHb. Qed.

Lemma put0_app : forall bs buf, put 0 bs buf = bs ++ skipn (length bs) buf.
Proof. reflexivity. Qed.

Lemma put0_twice : forall a b buf, length a = length b -> put 0 b (put 0 a buf) = put 0 b buf.
Proof.
  intros a b buf L. rewrite !put0_app. f_equal. rewrite <- L. rewrite skipn_app, skipn_all, Nat.sub_diag. reflexivity.
Qed.

Lemma firstn_put0 : forall n bs buf, length bs = n -> firstn n (put 0 bs buf) = bs.
Proof. intros n bs buf <-. rewrite put0_app, firstn_app, firstn_all, Nat.sub_diag. cbn [firstn]. apply app_nil_r. Qed.

Lemma put_app_r : forall o bs a b, (length a <= o)%nat -> put o bs (a ++ b) = a ++ put (o - length a) bs b.
Proof.
  intros o bs a b L. unfold put. rewrite firstn_app, skipn_app. rewrite firstn_all2 by lia. rewrite (skipn_all2 a) by lia.
  rewrite <- app_assoc. cbn [app]. do 3 f_equal. f_equal. lia.
Qed.

(** the numbers of the log *)
Fixpoint next_number (next : Z) (l : list (Z * bool)) : Z :=
  match l with [] => next | (_, again) :: r => next_number (if again then next else next + 1) r end.

Lemma consecutive_app : forall l1 l2 a, consecutive a (l1 ++ l2) <-> consecutive a l1 /\ consecutive (next_number a l1) l2.
Proof. induction l1 as [|[n g] l1 IH]; intros l2 a; cbn [app consecutive next_number]; [tauto|]. rewrite IH. tauto. Qed.
Lemma next_number_app : forall l1 l2 a, next_number a (l1 ++ l2) = next_number (next_number a l1) l2.
Proof. induction l1 as [|[n g] l1 IH]; intros l2 a; cbn [app next_number]; auto. Qed.

Definition rp_key (r : reply) : Z * bool := (rp_seq r, match rp_res r with SendNoBufs => true | _ => false end).

(** the reply packet as header and padding *)
Lemma f_loop_app : forall E D H mode ak rk hk len es1 es2 st,
  f_loop E D H mode ak rk hk len st (es1 ++ es2) =
  match f_loop E D H mode ak rk hk len st es1 with FMore st' => f_loop E D H mode ak rk hk len st' es2 | o => o end.
Proof.
  induction es1 as [|e es1 IH]; intros es2 st; cbn [app f_loop]; [reflexivity|].
  destruct (f_pass E D H mode ak rk hk len st e); auto.
Qed.

Section R.
Variable E D : list Z -> list Z -> list Z.
Variable H : list Z -> list Z -> list Z.
Variable mode : Z.
Variable aeskey replykey hmackey : list Z.
Variable len : nat.
Variable p : protection.
Hypothesis BC : block_cipher E D.
Hypothesis DG : digest20 H.
Hypothesis DL : forall k b, length b = 16%nat -> length (D k b) = 16%nat.
Hypothesis PM : protection_of mode = Some p.
Hypothesis LN : (req_pad p <= len)%nat.

Lemma modes : (p = Plain /\ open_mode mode = true) \/ (p = FirstBlock /\ mode = MODE_AUTH) \/ (p = AllBlocks /\ mode = MODE_ENCR).
Proof using PM.
  clear LN. unfold protection_of in PM. unfold open_mode, MODE_OPEN, MODE_MIXED, MODE_AUTH, MODE_ENCR.
  destruct (Z.eqb_spec mode 1); [left; injection PM as <-; auto|]. destruct (Z.eqb_spec mode 8); [left; injection PM as <-; auto|]. cbn [orb] in PM.
  destruct (Z.eqb_spec mode 2); [right; left; injection PM as <-; auto|]. destruct (Z.eqb_spec mode 4); [right; right; injection PM as <-; auto|discriminate].
Qed.

Lemma rep_at_pos : rep_at mode = mkPL (at_time (reply_pos p)) (at_err (reply_pos p)) (at_rcv (reply_pos p)) (at_sseq (reply_pos p)) (at_stime (reply_pos p))
  (at_serr (reply_pos p)) (at_sttl (reply_pos p)) (at_pad (reply_pos p)) /\ req_at mode = mkRL (req_time p) (req_err p) (req_pad p).
Proof using PM.
  clear LN. unfold rep_at, req_at. destruct modes as [[-> ->]|[[-> ->]|[-> ->]]]; split; reflexivity.
Qed.

(** the buffer is always as large as allocated *)
Definition cap : nat := (len + (at_pad (reply_pos p) - req_pad p))%nat.

Lemma open_request_spec : forall buf, length buf = cap ->
  length (fst (open_request D H mode aeskey hmackey buf)) = cap /\
  firstn len (fst (open_request D H mode aeskey hmackey buf)) = request_clear D p aeskey (firstn len buf) /\
  (snd (open_request D H mode aeskey hmackey buf) = true <-> request_authentic H p hmackey (request_clear D p aeskey (firstn len buf))).
Proof using DL PM LN.
  clear E replykey BC.
  intros buf L. unfold open_request, request_clear. unfold cap in *. destruct modes as [[-> ->]|[[-> ->]|[-> ->]]]; cbn [req_pad reply_pos at_pad] in *.
  - cbn [fst snd unchained request_authentic]. tauto.
  - change (open_mode MODE_AUTH) with false. cbn iota.
    rewrite unchained_dec by (rewrite firstn_length; lia). change (16 * 1)%nat with 16%nat. rewrite firstn_firstn. replace (Nat.min 16 len) with 16%nat by lia.
    change (sub 0 16 buf) with (firstn 16 buf).
    assert (LP: length (fst (cbc_dec D aeskey (zeros 16) 1 (firstn 16 buf))) = 16%nat).
    { cbn [cbc_dec fst]. rewrite app_nil_r, xor_octets_length, DL by (rewrite firstn_length, firstn_length; lia). reflexivity. }
    change (repeat 0 16) with (zeros 16).
    destruct (cbc_dec D aeskey (zeros 16) 1 (firstn 16 buf)) as [p1 iv]. cbn [fst snd] in *. change (MODE_AUTH =? MODE_ENCR) with false. cbn iota. cbn [fst snd].
    rewrite put_length by lia. split; [exact L|].
    assert (FE: firstn len (put 0 p1 buf) = p1 ++ skipn 16 (firstn len buf)).
    { rewrite put0_app, LP. rewrite firstn_app, LP. rewrite firstn_all2 by lia. f_equal. rewrite skipn_firstn_comm. reflexivity. }
    split; [exact FE|]. cbn [request_authentic]. rewrite firstn_app, LP, Nat.sub_diag. rewrite firstn_O, app_nil_r, (firstn_all2 p1) by lia.
    rewrite <- FE. unfold octs_at. 
    assert (SE: firstn 16 (skipn 32 (firstn len (put 0 p1 buf))) = sub 32 16 (put 0 p1 buf)).
    { unfold sub. rewrite skipn_firstn_comm, firstn_firstn. f_equal. lia. }
    rewrite SE. split; intros A; [apply eqb_octets_spec in A; exact A|rewrite A; apply eqb_octets_refl].
  - change (open_mode MODE_ENCR) with false. cbn iota.
    rewrite unchained_dec by (rewrite firstn_length; lia). change (16 * 2)%nat with 32%nat. rewrite firstn_firstn. replace (Nat.min 32 len) with 32%nat by lia.
    change (sub 0 16 buf) with (firstn 16 buf). change (repeat 0 16) with (zeros 16).
    cbn [cbc_dec fst snd]. rewrite !firstn_firstn. change (Nat.min 16 16) with 16%nat. change (Nat.min 16 32) with 16%nat.
    set (p1 := xor_octets (D aeskey (firstn 16 buf)) (zeros 16)). rewrite !app_nil_r.
    assert (LP: length p1 = 16%nat).
    { unfold p1. rewrite xor_octets_length, DL by (rewrite firstn_length; lia). reflexivity. }
    assert (S1: sub 16 16 (put 0 p1 buf) = firstn 16 (skipn 16 (firstn 32 buf))).
    { rewrite sub_put_disjoint by lia. unfold sub. rewrite skipn_firstn_comm, firstn_firstn. reflexivity. }
    rewrite S1. rewrite firstn_firstn. change (Nat.min 16 16) with 16%nat. set (c2 := firstn 16 (skipn 16 (firstn 32 buf))) in *. set (p2 := xor_octets (D aeskey c2) (firstn 16 buf)).
    assert (LP2: length p2 = 16%nat).
    { unfold p2. rewrite xor_octets_length, DL; unfold c2; rewrite ?firstn_length, ?skipn_length, ?firstn_length; lia. }
    change (MODE_ENCR =? MODE_ENCR) with true. cbn iota. cbn [fst snd].
    rewrite put_length by (rewrite put_length; lia). rewrite put_length by lia. split; [exact L|].
    assert (PE: put 16 p2 (put 0 p1 buf) = p1 ++ p2 ++ skipn 32 buf).
    { rewrite put0_app, LP. unfold put. rewrite <- LP at 1. rewrite firstn_app, firstn_all, Nat.sub_diag. rewrite firstn_O, app_nil_r, LP2.
      do 2 f_equal. rewrite skipn_app, LP. rewrite skipn_all2 by lia. cbn [app]. rewrite skipn_more. reflexivity. }
    assert (FE: firstn len (put 16 p2 (put 0 p1 buf)) = (p1 ++ p2) ++ skipn 32 (firstn len buf)).
    { rewrite PE, app_assoc. rewrite firstn_app, app_length, LP, LP2. rewrite firstn_all2 by (rewrite app_length; lia). f_equal. rewrite skipn_firstn_comm. reflexivity. }
    split; [exact FE|]. cbn [request_authentic]. rewrite firstn_app, app_length, LP, LP2. change (32 - (16 + 16))%nat with 0%nat. rewrite firstn_O, app_nil_r, (firstn_all2 (p1 ++ p2)) by (rewrite app_length; lia).
    rewrite <- FE. unfold octs_at.
    assert (SE: firstn 16 (skipn 32 (firstn len (put 16 p2 (put 0 p1 buf)))) = sub 32 16 (put 16 p2 (put 0 p1 buf))).
    { unfold sub. rewrite skipn_firstn_comm, firstn_firstn. f_equal. lia. }
    rewrite SE. split; intros A; [apply eqb_octets_spec in A; exact A|rewrite A; apply eqb_octets_refl].
Qed.

Lemma stamp_err : forall ts, exists e0 e1, snd (stamp_octets ts) = [e0; e1] /\ e1 <> 0.
Proof using.
  clear. intros ts. destruct (stamp_octets_spec ts) as (eb & -> & Le & X). cbn [snd]. destruct (X ts eq_refl) as (t & X1 & _).
  destruct eb as [|e0 [|e1 [|]]]; cbn [length] in Le; try discriminate Le. exists e0, e1. split; [reflexivity|]. unfold decode_errest in X1. cbn [byte nth] in X1.
  destruct (Z.eqb_spec e1 0) as [e|n]; [discriminate X1|exact n].
Qed.

Lemma reply_fields_spec : forall i rcv sseq sts serr ttl ts,
  length sseq = 4%nat -> length sts = 8%nat -> length serr = 2%nat ->
  let c := reply_fields mode i rcv sseq sts serr ttl ts in let o := reply_pos p in
  length c = at_pad o /\ sub 0 4 c = be_enc 4 (u32 i) /\ sub (at_time o) 8 c = encode_timestamp ts /\
  sub (at_rcv o) 8 c = encode_timestamp rcv /\ sub (at_sseq o) 4 c = sseq /\ sub (at_stime o) 8 c = sts /\
  sub (at_serr o) 2 c = serr /\ sub (at_sttl o) 1 c = [u8 ttl] /\ sub (at_err o) 2 c = snd (stamp_octets ts).
Proof using PM LN.
  intros i rcv sseq sts serr ttl ts L1 L2 L3. cbv zeta. unfold reply_fields.
  rewrite (proj1 rep_at_pos). cbn [p_tstamperr p_tstamp p_sttl p_serr p_sts p_sseq p_rcv p_padding].
  destruct (stamp_octets_spec ts) as (eb & -> & Le & _). cbn [snd].
  assert (LT := encode_timestamp_length ts). assert (LR := encode_timestamp_length rcv).
  destruct p; cbn [reply_pos at_time at_err at_rcv at_sseq at_stime at_serr at_sttl at_pad];
  match goal with |- length ?t = ?n /\ _ =>
    let r := reify_puts t (@nil (nat * list Z)) in
    match r with (?ws, ?b) => change t with (writes ws b);
      let sh := match n with 41%nat => constr:([(0,4);(16,8);(24,4);(28,8);(36,2);(40,1);(4,8);(12,2)]%nat) | _ => constr:([(0,4);(32,8);(48,4);(64,8);(72,2);(80,1);(16,8);(24,2)]%nat) end in
      assert (SH: shape ws = sh) by (unfold shape; cbn [map fst snd]; rewrite ?be_enc_length; cbn [length]; congruence);
      assert (ZL := zeros_length n); rewrite (len_writes n ws sh b SH) by first [vm_compute; reflexivity | lia]; split; [exact ZL|]; wsub n SH; auto 10
    end end.
Qed.

Lemma seal_reply_spec : forall c pad, length c = at_pad (reply_pos p) ->
  length (seal_reply E H mode replykey hmackey c) = at_pad (reply_pos p) /\
  exists c', reply_clear D p replykey (seal_reply E H mode replykey hmackey c ++ pad) = c' ++ pad /\ length c' = at_pad (reply_pos p) /\
    reply_authentic H p hmackey (c' ++ pad) /\
    forall o l, (o + l <= Nat.min 96 (at_pad (reply_pos p)))%nat -> sub o l c' = sub o l c.
Proof using BC DG PM LN.
  clear DL. intros c pad L. unfold seal_reply, reply_clear.
  assert (Gen: forall n, (n = 1 \/ n = 6)%nat -> length c = 112%nat ->
    let r := cbc_enc E replykey (zeros 16) n (firstn (16 * n) c) in
    let code := firstn 16 (H hmackey (firstn (16 * n) c)) in
    let s := put 96 code (put 0 (fst r) c) in
    length s = 112%nat /\ unchained D replykey (repeat 0 16) n (s ++ pad) = put 96 code c ++ pad /\
    length (put 96 code c) = 112%nat /\ octs_at (put 96 code c ++ pad) 96 16 = firstn 16 (H hmackey (firstn (16 * n) (put 96 code c ++ pad))) /\
    (forall o l, (o + l <= 96)%nat -> sub o l (put 96 code c) = sub o l c)).
  { intros n Hn L1 r code s. subst r.
    assert (LF: length (firstn (16 * n) c) = (16 * n)%nat) by (rewrite firstn_length; lia).
    assert (LZ: length (zeros 16) = 16%nat) by apply zeros_length.
    destruct (cbc_enc_len E D BC n replykey (zeros 16) _ LF LZ) as [LC _].
    assert (DE := cbc_dec_enc E D BC n replykey (zeros 16) _ LF LZ).
    set (ct := fst (cbc_enc E replykey (zeros 16) n (firstn (16 * n) c))) in *.
    assert (LCode: length code = 16%nat) by (unfold code; rewrite firstn_length, DG; reflexivity).
    assert (LP0: length (put 0 ct c) = 112%nat) by (rewrite put_length; lia).
    assert (LS: length s = 112%nat) by (unfold s; rewrite put_length; lia).
    assert (LPC: length (put 96 code c) = 112%nat) by (rewrite put_length; lia).
    assert (FS: firstn (16 * n) s = ct).
    { transitivity (sub 0 (16 * n) s); [reflexivity|]. unfold s. rewrite sub_put_disjoint by lia. rewrite sub_put_same by lia. reflexivity. }
    assert (FC: firstn (16 * n) (put 96 code c) = firstn (16 * n) c).
    { transitivity (sub 0 (16 * n) (put 96 code c)); [reflexivity|]. rewrite sub_put_disjoint by lia. reflexivity. }
    assert (SS: skipn (16 * n) s = skipn (16 * n) (put 96 code c)).
    { unfold s. rewrite put0_app, LC. rewrite <- (firstn_skipn (16 * n) c) at 2. rewrite !put_app_r by lia. rewrite LC, LF.
      rewrite !skipn_app, LC, LF. rewrite (skipn_all2 ct), (skipn_all2 (firstn (16 * n) c)) by lia. rewrite Nat.sub_diag. reflexivity. }
    split; [exact LS|]. split; [|split; [exact LPC|]].
    - rewrite unchained_dec by (rewrite app_length; lia). rewrite firstn_app. replace (16 * n - length s)%nat with 0%nat by lia. rewrite firstn_O, app_nil_r.
      rewrite FS. change (repeat 0 16) with (zeros 16). rewrite DE. cbn [fst]. rewrite skipn_app. replace (16 * n - length s)%nat with 0%nat by lia. cbn [skipn].
      rewrite SS, app_assoc, <- FC, firstn_skipn. reflexivity.
    - split.
      + change (octs_at (put 96 code c ++ pad) 96 16) with (sub 96 16 (put 96 code c ++ pad)). rewrite sub_app_l by lia. rewrite sub_put_same by lia.
        rewrite firstn_app. replace (16 * n - length (put 96 code c))%nat with 0%nat by lia. rewrite firstn_O, app_nil_r, FC. reflexivity.
      + intros o l Ho. apply sub_put_disjoint; lia. }
  destruct modes as [[-> OM]|[[-> OM]|[-> OM]]].
  - rewrite OM. cbn [reply_pos at_pad] in *. split; [exact L|]. exists c. cbn [unchained reply_authentic]. auto.
  - rewrite OM. change (open_mode MODE_AUTH) with false. change (MODE_AUTH =? MODE_ENCR) with false. cbn iota. cbn [reply_pos at_pad] in *.
    destruct (Gen 1%nat (or_introl eq_refl) L) as (A1 & A2 & A3 & A4 & A5). cbv zeta in *.
    destruct (cbc_enc E replykey (zeros 16) 1 (firstn (16 * 1) c)) as [ct iv]. cbn [fst] in *. split; [exact A1|].
    eexists. split; [exact A2|]. split; [exact A3|]. split; [exact A4|]. exact A5.
  - rewrite OM. change (open_mode MODE_ENCR) with false. change (MODE_ENCR =? MODE_ENCR) with true. cbn iota. cbn [reply_pos at_pad] in *.
    destruct (Gen 6%nat (or_intror eq_refl) L) as (A1 & A2 & A3 & A4 & A5). cbv zeta in *.
    destruct (cbc_enc E replykey (zeros 16) 6 (firstn (16 * 6) c)) as [ct iv]. cbn [fst] in *. split; [exact A1|].
    eexists. split; [exact A2|]. split; [exact A3|]. split; [exact A4|]. exact A5.
Qed.

Lemma encode_value : forall t, 0 <= owptime t < 2^64 -> number (encode_timestamp t) = owptime t.
Proof using. clear. intros t Ht. rewrite number_be, encode_timestamp_be8 by exact Ht. apply be_dec_enc. exact Ht. Qed.

Lemma stamp_value : forall t l cur err sy, clock_ok cur -> number (encode_timestamp (stamp t l cur err sy)) = time_of cur.
Proof using.
  clear. intros t l [s n] err sy [A B]. cbn [fst snd] in *.
  assert (V: owptime (stamp t l (s, n) err sy) = time_of (s, n)) by (unfold stamp; cbn [owptime]; now rewrite epoch_value).
  rewrite encode_value; rewrite V; [reflexivity|]. unfold time_of. cbn [fst snd]. lia.
Qed.
Lemma recv_value : forall t l cur err, clock_ok cur -> number (encode_timestamp (OWPTimespecToTimestamp t cur (Some err) (Some l))) = time_of cur.
Proof using.
  clear. intros t l [s n] err [A B]. cbn [fst snd] in *.
  assert (V: owptime (OWPTimespecToTimestamp t (s, n) (Some err) (Some l)) = time_of (s, n)) by (now rewrite epoch_value).
  rewrite encode_value; rewrite V; [reflexivity|]. unfold time_of. cbn [fst snd]. lia.
Qed.

(** the reply, given the request in clear at the beginning of the buffer *)
Lemma keep_padding_spec : forall q, length q = cap -> length (keep_padding mode len q) = cap /\
  forall s, length s = at_pad (reply_pos p) ->
  firstn (reply_len mode len) (s ++ skipn (at_pad (reply_pos p)) (keep_padding mode len q)) =
  s ++ firstn (len - at_pad (reply_pos p)) (skipn (req_pad p) (firstn len q)).
Proof.
  clear BC DG DL. intros q L. unfold keep_padding, reply_len. rewrite (proj1 rep_at_pos), (proj2 rep_at_pos). cbn [p_padding q_padding].
  unfold cap in *. set (o := at_pad (reply_pos p)) in *. set (r := req_pad p) in *. assert (RO: (r <= o)%nat) by (subst o r; destruct p; cbn; lia).
  assert (LX: (o < len)%nat -> length (sub r (len - o) q) = (len - o)%nat).
  { intros. unfold sub. rewrite firstn_length, skipn_length. lia. }
  destruct (Nat.ltb_spec o len) as [Ho|Ho].
  - split; [rewrite put_length; rewrite ?LX; lia|]. intros s Ls. rewrite firstn_app, Ls, firstn_all2 by lia. f_equal.
    replace (Nat.max len o - o)%nat with (len - o)%nat by lia.
    change (firstn (len - o) (skipn o (put o (sub r (len - o) q) q))) with (sub o (len - o) (put o (sub r (len - o) q) q)).
    rewrite sub_put_same by (rewrite ?LX; lia). unfold sub. rewrite skipn_firstn_comm, firstn_firstn. f_equal. lia.
  - split; [exact L|]. intros s Ls. rewrite firstn_app, Ls, firstn_all2 by lia. f_equal. replace (Nat.max len o - o)%nat with 0%nat by lia.
    replace (len - o)%nat with 0%nat by lia. reflexivity.
Qed.

(** sending *)
Lemma f_send_spec : forall l st mk, length (f_buf st) = cap -> (forall t, length (mk t) = at_pad (reply_pos p)) ->
  exists new, flog (f_send mode len st mk l) = f_log st ++ new /\
    consecutive (f_i st) (map rp_key new) /\
    Forall (fun r => rp_seq r = f_i st /\ exists a cur err sy t0 l0, In a l /\ fa_clock a = Some (cur, err, sy) /\ rp_res r = fa_send a /\
      rp_pkt r = firstn (reply_len mode len) (mk (stamp t0 l0 cur err sy) ++ skipn (at_pad (reply_pos p)) (f_buf st))) new /\
    forall st', f_send mode len st mk l = FMore st' -> f_i st' = next_number (f_i st) (map rp_key new) /\ length (f_buf st') = cap /\ f_log st' = f_log st ++ new.
Proof.
  clear BC DG DL. induction l as [|a l IH]; intros st mk L M; cbn [f_send].
  - exists []. cbn [flog]. rewrite app_nil_r. repeat split; auto; cbn [map]; try constructor; discriminate.
  - destruct (fa_clock a) as [[[cur err] sy]|] eqn:EC.
    2: { exists []. cbn [flog]. rewrite app_nil_r. repeat split; auto; cbn [map]; try constructor; discriminate. }
    destruct (fa_stop a).
    { exists []. cbn [flog]. rewrite app_nil_r. repeat split; auto; cbn [map]; try constructor; discriminate. }
    assert (LB: forall t, length (put 0 (mk t) (f_buf st)) = cap).
    { intros. rewrite put_length; [exact L|]. rewrite M, L. unfold cap. destruct p; cbn [reply_pos at_pad req_pad] in *; lia. }
    set (ts := stamp (f_ts st) (f_last st) cur err sy).
    set (r := mkReply (f_i st) (firstn (reply_len mode len) (put 0 (mk ts) (f_buf st))) (fa_send a)).
    assert (PK: rp_pkt r = firstn (reply_len mode len) (mk ts ++ skipn (at_pad (reply_pos p)) (f_buf st))).
    { cbn [r rp_pkt]. rewrite put0_app, M. reflexivity. }
    assert (FR: rp_seq r = f_i st /\ exists a0 cur0 err0 sy0 t0 l0, In a0 (a :: l) /\ fa_clock a0 = Some (cur0, err0, sy0) /\ rp_res r = fa_send a0 /\
      rp_pkt r = firstn (reply_len mode len) (mk (stamp t0 l0 cur0 err0 sy0) ++ skipn (at_pad (reply_pos p)) (f_buf st))).
    { split; [reflexivity|]. exists a, cur, err, sy, (f_ts st), (f_last st). repeat split; auto. now left. }
    assert (K: rp_key r = (f_i st, match fa_send a with SendNoBufs => true | _ => false end)) by reflexivity.
    clearbody r.
    destruct (fa_send a) eqn:ES.
    2: { match goal with |- context [f_send mode len ?s0 mk l] => destruct (IH s0 mk (LB ts) M) as (new & N1 & N2 & N3 & N4) end.
      cbn [f_i f_log f_buf] in *. exists (r :: new). rewrite N1, <- app_assoc. split; [reflexivity|]. split; [|split].
      - cbn [map consecutive]. rewrite K. auto.
      - constructor; [exact FR|]. eapply Forall_impl; [|exact N3]. cbv beta. intros r0 (S0 & a0 & cur0 & err0 & sy0 & t0 & l0 & I0 & C0 & R0 & P0).
        split; [exact S0|]. exists a0, cur0, err0, sy0, t0, l0. split; [now right|]. split; [exact C0|]. split; [exact R0|]. rewrite P0. f_equal. f_equal.
        rewrite put0_app, M. rewrite skipn_app, M, Nat.sub_diag, skipn_all2 by (rewrite M; lia). reflexivity.
      - intros st' HS. destruct (N4 st' HS) as (A & B & C). cbn [map next_number]. rewrite K. rewrite C, <- app_assoc. auto. }
    all: exists [r]; cbn [flog f_log]; split; [reflexivity|]; split; [cbn [map consecutive]; rewrite K; auto|]; split; [constructor; [exact FR|constructor]|].
    all: intros st' HS; try discriminate HS; injection HS as <-; cbn [f_i f_buf f_log map next_number]; rewrite K; auto.
Qed.

(** one passage *)
Definition answer_to (e : fenv) (i : Z) (r : reply) : Prop :=
  exists known data ttl rc rerr rsy, fe_rx e = FxData true known data ttl /\ fe_clock e = Some (rc, rerr, rsy) /\
  (fe_eintr e = false -> known = true /\ (len <= length data)%nat) /\
  rp_seq r = i /\
  ((len <= length data)%nat ->
    let req := request_clear D p aeskey (firstn len data) in let rep := reply_clear D p replykey (rp_pkt r) in
    request_authentic H p hmackey req /\ mirrors p req rep i ttl /\ length (rp_pkt r) = Nat.max len (at_pad (reply_pos p)) /\ reply_authentic H p hmackey rep /\
    (clock_ok rc -> field rep (at_rcv (reply_pos p)) 8 = time_of rc) /\
    exists a c cerr csy, In a (fe_sends e) /\ fa_clock a = Some (c, cerr, csy) /\ rp_res r = fa_send a /\
      (clock_ok c -> field rep (at_time (reply_pos p)) 8 = time_of c) /\ field rep (at_err (reply_pos p) + 1) 1 <> 0).

Lemma octs_sub : forall m o l, octs_at m o l = sub o l m.
Proof using. reflexivity. Qed.
Lemma field_sub : forall m o l, field m o l = number (sub o l m).
Proof using. reflexivity. Qed.

Lemma unchained_length : forall n k iv l, length iv = 16%nat -> (16 * n <= length l)%nat -> length (unchained D k iv n l) = length l.
Proof using DL.
  clear -DL. induction n; intros k iv l Li L; cbn [unchained]; [reflexivity|]. rewrite app_length, map_length, combine_length, DL by (rewrite firstn_length; lia).
  rewrite IHn by (rewrite ?firstn_length, ?skipn_length; lia). rewrite skipn_length. lia.
Qed.
Lemma request_length : forall k l, (req_pad p <= length l)%nat -> length (request_clear D p k l) = length l.
Proof using DL.
  clear -DL. intros k l L. unfold request_clear. apply unchained_length; [reflexivity|]. destruct p; cbn [req_pad] in L; lia.
Qed.

Lemma f_pass_spec : forall st e, length (f_buf st) = cap ->
  exists new, flog (f_pass E D H mode aeskey replykey hmackey len st e) = f_log st ++ new /\
    consecutive (f_i st) (map rp_key new) /\ Forall (answer_to e (f_i st)) new /\
    forall st', f_pass E D H mode aeskey replykey hmackey len st e = FMore st' ->
      f_i st' = next_number (f_i st) (map rp_key new) /\ length (f_buf st') = cap /\ f_log st' = f_log st ++ new.
Proof.
  intros st e L. unfold f_pass.
  assert (Triv: forall r, (r = FEnd (f_log st) \/ r = FFail (f_log st)) -> exists new, flog r = f_log st ++ new /\
    consecutive (f_i st) (map rp_key new) /\ Forall (answer_to e (f_i st)) new /\
    forall st', r = FMore st' -> f_i st' = next_number (f_i st) (map rp_key new) /\ length (f_buf st') = cap /\ f_log st' = f_log st ++ new).
  { intros r Hr. exists []. rewrite app_nil_r. destruct Hr; subst r; (split; [reflexivity|]; split; [exact I|]; split; [constructor|discriminate]). }
  assert (Triv2: forall st0, f_i st0 = f_i st -> f_log st0 = f_log st -> length (f_buf st0) = cap -> exists new, flog (FMore st0) = f_log st ++ new /\
    consecutive (f_i st) (map rp_key new) /\ Forall (answer_to e (f_i st)) new /\
    forall st', FMore st0 = FMore st' -> f_i st' = next_number (f_i st) (map rp_key new) /\ length (f_buf st') = cap /\ f_log st' = f_log st ++ new).
  { intros st0 A B C. exists []. rewrite app_nil_r. split; [exact B|]. split; [exact I|]. split; [constructor|]. intros st' HS. injection HS as <-. auto. }
  destruct (fe_chk1 e); cbn [fchecked]; [|apply Triv; auto|apply Triv; auto].
  destruct (fe_rx e) as [|peer known data ttl] eqn:ER.
  { destruct (negb false && negb (fe_eintr e)); [apply Triv; auto|]. destruct (fe_chk2 e); cbn [fchecked]; [|apply Triv; auto|apply Triv; auto].
    destruct (fe_clock e) as [[[rc rerr] rsy]|]; [|apply Triv; auto]. destruct (fe_chk3 e); cbn [fchecked]; [|apply Triv; auto|apply Triv; auto].
    apply Triv2; auto. }
  destruct (negb (known && (len <=? length data)%nat) && negb (fe_eintr e)) eqn:EK; [apply Triv; auto|].
  destruct (fe_chk2 e); cbn [fchecked]; [|apply Triv; auto|apply Triv; auto].
  destruct (fe_clock e) as [[[rc rerr] rsy]|] eqn:EC; [|apply Triv; auto]. destruct (fe_chk3 e); cbn [fchecked]; [|apply Triv; auto|apply Triv; auto].
  assert (LB: length (put 0 (firstn len data) (f_buf st)) = cap).
  { rewrite put_length; [exact L|]. rewrite firstn_length, L. unfold cap. lia. }
  destruct peer; [|apply Triv2; auto].
  destruct (open_request_spec _ LB) as (OL & OC & OA).
  destruct (open_request D H mode aeskey hmackey (put 0 (firstn len data) (f_buf st))) as [q ok]. cbn [fst snd] in *.
  destruct ok; [|apply Triv2; auto].
  set (rts := OWPTimespecToTimestamp (f_rts st) rc (Some rerr) (Some (f_rlast st))). cbn [f_i].
  destruct (keep_padding_spec q OL) as (KL & KP).
  assert (CQ: (req_pad p <= len <= cap)%nat) by (split; [exact LN|unfold cap; lia]).
  rewrite (proj2 rep_at_pos). cbn [q_tstamp q_tstamperr].
  assert (LQ1: length (sub 0 4 q) = 4%nat) by (unfold sub; rewrite firstn_length, skipn_length; destruct p; cbn [req_pad] in CQ; lia).
  assert (LQ2: length (sub (req_time p) 8 q) = 8%nat) by (unfold sub; rewrite firstn_length, skipn_length; destruct p; cbn [req_pad req_time] in *; lia).
  assert (LQ3: length (sub (req_err p) 2 q) = 2%nat) by (unfold sub; rewrite firstn_length, skipn_length; destruct p; cbn [req_pad req_err] in *; lia).
  set (mk := fun ts => seal_reply E H mode replykey hmackey (reply_fields mode (f_i st) rts (sub 0 4 q) (sub (req_time p) 8 q) (sub (req_err p) 2 q) ttl ts)).
  assert (LM: forall t, length (mk t) = at_pad (reply_pos p)).
  { intros t. unfold mk. destruct (reply_fields_spec (f_i st) rts _ _ _ ttl t LQ1 LQ2 LQ3) as (FL & _). exact (proj1 (seal_reply_spec _ [] FL)). }
  match goal with |- context [f_send mode len ?s0 mk ?l] => destruct (f_send_spec l s0 mk KL LM) as (new & N1 & N2 & N3 & N4) end.
  cbn [f_i f_log f_buf] in *. exists new. split; [exact N1|]. split; [exact N2|]. split; [|exact N4].
  eapply Forall_impl; [|exact N3]. cbv beta. intros r (S0 & a & cur & err & sy & t0 & l0 & I0 & C0 & R0 & P0).
  exists known, data, ttl, rc, rerr, rsy. split; [exact ER|]. split; [exact EC|]. split.
  { intros EE. rewrite EE in EK. cbn [negb] in EK. rewrite andb_true_r in EK. apply negb_false_iff, andb_true_iff in EK. destruct EK as [-> KK]. apply Nat.leb_le in KK. auto. }
  split; [exact S0|]. intros LD. cbv zeta.
  assert (FD: firstn len (put 0 (firstn len data) (f_buf st)) = firstn len data) by (apply firstn_put0; rewrite firstn_length; lia).
  rewrite FD in OC, OA. split; [apply OA; reflexivity|].
  assert (LF: length (firstn len data) = len) by (rewrite firstn_length; lia).
  set (req := request_clear D p aeskey (firstn len data)) in *.
  assert (LR: length req = len) by (unfold req; rewrite request_length; lia).
  rewrite (KP (mk (stamp t0 l0 cur err sy)) (LM _)) in P0. rewrite OC in P0. rewrite P0. set (pad := firstn (len - at_pad (reply_pos p)) (skipn (req_pad p) req)).
  destruct (reply_fields_spec (f_i st) rts _ _ _ ttl (stamp t0 l0 cur err sy) LQ1 LQ2 LQ3) as (FL & F0 & F1 & F2 & F3 & F4 & F5 & F6 & F7).
  destruct (seal_reply_spec _ pad FL) as (SL & c' & SC & CL & SA & SF).
  assert (LRP: length (mk (stamp t0 l0 cur err sy) ++ pad) = Nat.max len (at_pad (reply_pos p))).
  { rewrite app_length, LM. unfold pad. rewrite firstn_length, skipn_length, LR. clear - CQ. destruct p; cbn [reply_pos at_pad req_pad] in *; lia. }
  unfold mk in *. rewrite SC. clear SC SL N1 N2 N3 N4 Triv Triv2.
  set (c := reply_fields mode (f_i st) rts (sub 0 4 q) (sub (req_time p) 8 q) (sub (req_err p) 2 q) ttl (stamp t0 l0 cur err sy)) in *. clearbody c.
  assert (Q: forall o l, (o + l <= len)%nat -> octs_at req o l = sub o l q).
  { intros o l Ho. rewrite <- OC. rewrite octs_sub. unfold sub. rewrite skipn_firstn_comm, firstn_firstn. f_equal. lia. }
  assert (G: forall o l, (o + l <= Nat.min 96 (at_pad (reply_pos p)))%nat -> sub o l (c' ++ pad) = sub o l c).
  { intros o l Ho. rewrite sub_app_l by lia. apply SF. exact Ho. }
  split; [|split; [exact LRP|split; [exact SA|]]].
  - unfold mirrors. rewrite !field_sub, !octs_sub.
    rewrite (G 0%nat 4%nat), (G (at_sseq (reply_pos p)) 4%nat), (G (at_stime (reply_pos p)) 8%nat), (G (at_serr (reply_pos p)) 2%nat), (G (at_sttl (reply_pos p)) 1%nat)
      by (clear; destruct p; cbn; lia).
    rewrite F0, F3, F4, F5, F6. rewrite <- !octs_sub. rewrite !Q by (clear - CQ; destruct p; cbn [req_pad req_time req_err] in *; lia).
    split; [rewrite number_be, be_dec_enc_mod; unfold u32; clear; change (256 ^ Z.of_nat 4) with (2 ^ 32); rewrite Z.mod_mod; lia|].
    split; [reflexivity|]. split; [reflexivity|]. split; [reflexivity|]. split; [unfold number; cbn; unfold u8; change M8 with 256; lia|].
    split.
    + rewrite <- CL. rewrite skipn_app, skipn_all, Nat.sub_diag. cbn [skipn app]. unfold pad. rewrite LR, CL. reflexivity.
    + rewrite app_length, CL, LR. unfold pad. rewrite firstn_length, skipn_length, LR. clear - CQ. destruct p; cbn [reply_pos at_pad req_pad] in *; lia.
  - split.
    + intros OK. rewrite field_sub, G by (clear; destruct p; cbn; lia). rewrite F2. unfold rts. now apply recv_value.
    + exists a, cur, err, sy. split; [exact I0|]. split; [exact C0|]. split; [exact R0|].
      split; [intros OK; rewrite field_sub, G by (clear; destruct p; cbn; lia); rewrite F1; now apply stamp_value|].
      destruct (stamp_err (stamp t0 l0 cur err sy)) as (e0 & e1 & X1 & X2). rewrite X1 in F7.
      rewrite field_sub, G by (clear; destruct p; cbn; lia). rewrite <- (sub_sub 1 1 (at_err (reply_pos p)) 2 c) by lia. rewrite F7. unfold sub, number. cbn [skipn firstn fold_left]. lia.
Qed.

(** runs *)
Lemma run_inv : forall es, let r := run_reflector E D H mode aeskey replykey hmackey len es in
  consecutive 0 (map rp_key (flog r)) /\ forall st, r = FMore st -> f_i st = next_number 0 (map rp_key (f_log st)) /\ length (f_buf st) = cap.
Proof.
  intros es. cbv zeta. unfold run_reflector.
  assert (Gen: forall es st, consecutive 0 (map rp_key (f_log st)) -> f_i st = next_number 0 (map rp_key (f_log st)) -> length (f_buf st) = cap ->
    consecutive 0 (map rp_key (flog (f_loop E D H mode aeskey replykey hmackey len st es))) /\
    forall st', f_loop E D H mode aeskey replykey hmackey len st es = FMore st' -> f_i st' = next_number 0 (map rp_key (f_log st')) /\ length (f_buf st') = cap).
  { clear es. induction es as [|e es IH]; intros st A B C; cbn [f_loop].
    - split; [exact A|]. intros st' HS. injection HS as <-. auto.
    - destruct (f_pass_spec st e C) as (new & N1 & N2 & _ & N4).
      assert (CN: consecutive 0 (map rp_key (f_log st ++ new))).
      { rewrite map_app, consecutive_app. split; [exact A|]. now rewrite <- B. }
      destruct (f_pass E D H mode aeskey replykey hmackey len st e) as [st1|lg|lg|lg] eqn:EP; cbn [flog] in N1.
      + destruct (N4 st1 eq_refl) as (P1 & P2 & P3). apply IH; [rewrite P3; exact CN| |exact P2]. rewrite P3, map_app, next_number_app, <- B. exact P1.
      + split; [cbn [flog]; rewrite N1; exact CN|discriminate].
      + split; [cbn [flog]; rewrite N1; exact CN|discriminate].
      + split; [cbn [flog]; rewrite N1; exact CN|discriminate]. }
  apply Gen; unfold f_init; cbn [f_log f_i f_buf map consecutive next_number]; auto.
  rewrite zeros_length, (proj1 rep_at_pos), (proj2 rep_at_pos). reflexivity.
Qed.

Lemma run_step : forall es e st, run_reflector E D H mode aeskey replykey hmackey len es = FMore st ->
  run_reflector E D H mode aeskey replykey hmackey len (es ++ [e]) = f_pass E D H mode aeskey replykey hmackey len st e.
Proof using.
  clear. intros es e st R. unfold run_reflector in *. rewrite f_loop_app, R. cbn [f_loop]. destruct (f_pass _ _ _ _ _ _ _ _ _ _); reflexivity.
Qed.
End R.
