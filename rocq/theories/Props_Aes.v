(** C82, C83: the cipher and the keys of test sessions. *)
From Coq Require Import ZArith List Bool Lia ZifyBool ZifyNat.
From Verif Require Import Base BaseLemmas Arith_Model Sched_Model Sched_Spec Sched_Proofs Wire_Model Control_Model Control_Spec
  Aes_Tables Aes_Model Aes_Spec Aes_Proofs Keys_Model.
Import ListNotations.
Open Scope Z_scope.

(** ** C82 *)

(** the implementation computes the standard's Cipher ... *)
Theorem C82_encrypts : forall key b, length key = 16%nat -> octets key -> length b = 16%nat -> octets b ->
  rijndaelEncrypt (rijndaelKeySetupEnc key) b = Cipher key b.
Proof. intros key b K1 K2 B1 B2. apply encrypt_spec; split; auto. Qed.
Print Assumptions C82_encrypts.

(** ... and its InvCipher ... *)
Theorem C82_decrypts : forall key b, length key = 16%nat -> octets key -> length b = 16%nat -> octets b ->
  rijndaelDecrypt (rijndaelKeySetupDec key) b = InvCipher key b.
Proof. intros key b K1 K2 B1 B2. apply decrypt_spec; split; auto. Qed.
Print Assumptions C82_decrypts.

(** ... so that decryption with a key inverts encryption with it, and both yield 16 octets. *)
Theorem C82_inverse : forall key b, length key = 16%nat -> octets key -> length b = 16%nat -> octets b ->
  rijndaelDecrypt (rijndaelKeySetupDec key) (rijndaelEncrypt (rijndaelKeySetupEnc key) b) = b /\
  length (rijndaelEncrypt (rijndaelKeySetupEnc key) b) = 16%nat /\ octets (rijndaelEncrypt (rijndaelKeySetupEnc key) b) /\
  length (rijndaelDecrypt (rijndaelKeySetupDec key) b) = 16%nat /\ octets (rijndaelDecrypt (rijndaelKeySetupDec key) b).
Proof.
  intros key b K1 K2 B1 B2. assert (K : blk key) by (split; auto). assert (B : blk b) by (split; auto).
  rewrite encrypt_spec by auto. destruct (cipher_blk key b K B) as [C1 C2]. rewrite !decrypt_spec by (auto; split; auto).
  destruct (inv_cipher_blk key b K B) as [I1 I2]. split; [apply inv_cipher_cipher; auto|]. auto.
Qed.
Print Assumptions C82_inverse.

(** The theorems about the protocol speak of an arbitrary cipher with certain properties; AES has
    all of them. *)
Theorem C82_assumptions_met :
  block_cipher aesE aesD /\ blocks16 aesD /\ (forall k b, octets b -> octets (aesD k b)) /\ (forall k b, octets b -> octets (aesE k b)).
Proof.
  split; [|split; [|split]].
  - intros k b L. unfold aesE. destruct (sixteen k && sixteen b) eqn:S0.
    + apply andb_true_iff in S0. destruct S0 as [S1 S2]. pose proof S1 as K. apply sixteen_blk in K. apply sixteen_blk in S2.
      destruct K as [K1 K2]. destruct S2 as [B1 B2]. destruct (C82_inverse k b K1 K2 B1 B2) as (I & L1 & O1 & _). split; [exact L1|].
      unfold aesD. assert (Q : sixteen (rijndaelEncrypt (rijndaelKeySetupEnc k) b) = true) by (apply sixteen_blk; split; auto).
      rewrite S1, Q. exact I.
    + split; [exact L|]. unfold aesD. rewrite S0. reflexivity.
  - intros k b L. unfold aesD. destruct (sixteen k && sixteen b) eqn:S0; [|exact L].
    apply andb_true_iff in S0. destruct S0 as [S1 S2]. apply sixteen_blk in S1, S2. destruct S1, S2. now apply (C82_inverse k b).
  - intros k b O. unfold aesD. destruct (sixteen k && sixteen b) eqn:S0; [|exact O].
    apply andb_true_iff in S0. destruct S0 as [S1 S2]. apply sixteen_blk in S1, S2. destruct S1, S2. now apply (C82_inverse k b).
  - intros k b O. unfold aesE. destruct (sixteen k && sixteen b) eqn:S0; [|exact O].
    apply andb_true_iff in S0. destruct S0 as [S1 S2]. apply sixteen_blk in S1, S2. destruct S1, S2. now apply (C82_inverse k b).
Qed.
Print Assumptions C82_assumptions_met.

(** The pseudo-random stream behind the schedules is the standard's cipher in counter mode, keyed by the SID. *)
Theorem C82_schedule_stream : forall sid n, length sid = 16%nat -> octets sid ->
  fst (unif_rand aesE (Nat.iter n (fun e => snd (unif_rand aesE e)) (zero_exp sid))) = ctr_word Cipher sid n.
Proof.
  intros sid n L O. assert (K : blk sid) by (split; auto).
  pose (E0 := fun k b => if sixteen k && sixteen b then Cipher k b else zeros 16).
  assert (E0b : forall k b, blk (E0 k b)).
  { intros k b. unfold E0. destruct (sixteen k && sixteen b) eqn:S0; [|split; [reflexivity|apply zeros_octets]].
    apply andb_true_iff in S0. destruct S0 as [S1 S2]. apply sixteen_blk in S1, S2. apply cipher_blk; auto. }
  assert (EQ : forall b, blk b -> aesE sid b = Cipher sid b /\ E0 sid b = Cipher sid b).
  { intros b B. pose proof K as K'. pose proof B as B'. apply sixteen_blk in K', B'. unfold aesE, E0. rewrite K', B'. cbn [andb]. split; [apply encrypt_spec; auto|reflexivity]. }
  clearbody E0.
  assert (SO : forall k x, octs k x = be_enc k x).
  { induction k as [|k IH]; intros x; [reflexivity|]. cbn [octs be_enc]. rewrite IH. clear IH. revert x. induction k as [|k IH]; intros x; [cbn; now rewrite Z.div_1_r|].
    cbn [be_enc app]. rewrite <- IH. f_equal. f_equal. rewrite Z.div_div by lia. f_equal. rewrite Nat2Z.inj_succ, Z.pow_succ_r by lia. reflexivity. }
  assert (ST : forall m, exists c o, Nat.iter m (fun e => snd (unif_rand aesE e)) (zero_exp sid) = mkExp sid c o /\
                 Nat.iter m (fun e => snd (unif_rand E0 e)) (zero_exp sid) = mkExp sid c o /\ blk c /\ length c = 16%nat).
  { induction m as [|m (c & o & A & B & C & L1)].
    - exists (zeros 16), (zeros 16). repeat split; try apply zeros_octets.
    - assert (IS : forall f x, Nat.iter (S m) f x = f (Nat.iter m f x) :> expctx) by reflexivity. rewrite !IS. clear IS. rewrite A, B. unfold unif_rand. cbn [e_counter e_key e_out snd].
      assert (Q : aesE sid c = E0 sid c).
      { destruct (EQ c C) as [-> ->]. reflexivity. }
      rewrite Q. eexists _, _. split; [reflexivity|]. split; [reflexivity|].
      assert (X : blk (incr_counter c)).
      { destruct C as [C1 C2]. unfold incr_counter. destruct (incr_le_spec (rev c)) as (I1 & I2 & _); [apply Forall_rev; exact C2|].
        split; [rewrite rev_length, I2, rev_length; exact C1|apply Forall_rev; exact I1]. }
      split; [exact X|apply X]. }
  destruct (ST n) as (c & o & A & B & C & _). rewrite A.
  assert (Q : fst (unif_rand aesE (mkExp sid c o)) = fst (unif_rand E0 (mkExp sid c o))).
  { unfold unif_rand. cbn [e_counter e_key e_out fst]. assert (Q : aesE sid c = E0 sid c) by (destruct (EQ c C) as [-> ->]; reflexivity).
    rewrite Q. reflexivity. }
  rewrite Q, <- B. rewrite (unif_stream E0 (fun k b => proj1 (E0b k b)) (fun k b => proj2 (E0b k b)) sid n).
  unfold ctr_word. rewrite SO. set (b := be_enc 16 _). assert (Bb : blk b) by (split; [apply be_enc_length|apply be_enc_octets]).
  f_equal. f_equal. f_equal. apply EQ. exact Bb.
Qed.
Print Assumptions C82_schedule_stream.

(** FIPS 197, appendix C.1 *)
Example C82_case :
  rijndaelEncrypt (rijndaelKeySetupEnc fips_key) fips_plain = fips_cipher /\
  rijndaelDecrypt (rijndaelKeySetupDec fips_key) fips_cipher = fips_plain /\
  length fips_key = 16%nat /\ length fips_plain = 16%nat.
Proof. split; [vm_compute; reflexivity|]. split; [vm_compute; reflexivity|]. auto. Qed.

(** ** C83 *)
Lemma cipher_inj : forall key a b, blk key -> blk a -> blk b -> Cipher key a = Cipher key b -> a = b.
Proof. intros key a b K A B E. rewrite <- (inv_cipher_cipher key a K A), E. apply inv_cipher_cipher; auto. Qed.

Lemma xor16_blk : forall a b, blk a -> blk b -> blk (xor_octets a b).
Proof.
  intros a b [A1 A2] [B1 B2]. split.
  - clear A2 B2. revert b B1 A1. generalize 16%nat. induction a as [|x a IH]; intros n [|y b] B A; cbn in *; try lia. destruct n; [lia|]. f_equal. apply IH; lia.
  - clear A1 B1. revert b B2. induction A2 as [|x a X A IH]; intros b B; [constructor|]. destruct B as [|y b Y B]; [constructor|].
    cbn. constructor; [apply lxor_octet; auto|apply IH, B].
Qed.

(** RFC 4656, 4.1: the test AES key is the connection's AES key encrypted with the SID as the key;
    the test HMAC key is the connection's HMAC key encrypted with the SID as the key in CBC mode with
    a zero initial vector.  Only in the modes that protect test packets. *)
Theorem C83_derived : forall mode tw server send sid ckey h1 h2,
  mode = MODE_AUTH \/ mode = MODE_ENCR -> length sid = 16%nat -> octets sid -> length ckey = 16%nat -> octets ckey ->
  length h1 = 16%nat -> octets h1 -> length h2 = 16%nat -> octets h2 ->
  exists k c1 c2, test_keys mode tw server send sid ckey (h1 ++ h2) = Some k /\
    tk_bytes k = Cipher sid ckey /\ tk_hmac k = c1 ++ c2 /\ chained Cipher sid (zeros 16) [h1; h2] [c1; c2].
Proof.
  intros mode tw server send sid ckey h1 h2 M S1 S2 C1 C2 H1 O1 H2 O2.
  assert (K : blk sid) by (split; auto). assert (CK : blk ckey) by (split; auto). assert (B1 : blk h1) by (split; auto). assert (B2 : blk h2) by (split; auto).
  assert (Z0 : blk (zeros 16)) by (split; [reflexivity|apply zeros_octets]).
  pose (c1 := Cipher sid (xor_octets h1 (zeros 16))). pose (c2 := Cipher sid (xor_octets h2 c1)).
  assert (HM : fst (cbc_enc (fun _ b => rijndaelEncrypt (rijndaelKeySetupEnc sid) b) sid (zeros 16) 2 (h1 ++ h2)) = c1 ++ c2).
  { cbn [cbc_enc]. rewrite firstn_app, H1, Nat.sub_diag, firstn_O, app_nil_r, firstn_all2 by lia.
    rewrite skipn_app, H1, Nat.sub_diag, skipn_O, skipn_all2, app_nil_l by lia. rewrite (firstn_all2 h2) by lia.
    assert (X1 : blk (xor_octets h1 (zeros 16))) by (apply xor16_blk; auto).
    assert (Y1 : blk c1) by (apply cipher_blk; auto). assert (X2 : blk (xor_octets h2 c1)) by (apply xor16_blk; auto).
    rewrite (encrypt_spec sid _ K X1). fold c1. rewrite (encrypt_spec sid _ K X2). fold c2. cbn [fst]. now rewrite app_nil_r. }
  assert (G : negb (Z.land mode (Z.lor MODE_AUTH MODE_ENCR) =? 0) = true) by (destruct M as [-> | ->]; reflexivity).
  assert (CE : chained Cipher sid (zeros 16) [h1; h2] [c1; c2]) by (repeat constructor).
  unfold test_keys. rewrite G, HM. rewrite (encrypt_spec sid ckey K CK). clearbody c1 c2. clear HM. generalize (Cipher sid ckey). intros bytes.
  destruct tw; [destruct server|destruct send]; eexists; exists c1, c2; (split; [reflexivity|]; cbn [tk_bytes tk_hmac]; auto).
Qed.
Print Assumptions C83_derived.

Theorem C83_open : forall mode tw server send sid ckey hkey, mode = MODE_OPEN \/ mode = MODE_MIXED ->
  test_keys mode tw server send sid ckey hkey = None.
Proof. intros mode tw server send sid ckey hkey [-> | ->]; reflexivity. Qed.
Print Assumptions C83_open.

(** what a key schedule for encryption encrypts, the other decrypts *)
Definition matching (enc dec : list Z) : Prop :=
  forall b, length b = 16%nat -> octets b -> rijndaelDecrypt dec (rijndaelEncrypt enc b) = b.

(** The two ends of a session hold matching keys: one-way, the sender's and the receiver's whichever
    of them is the server; two-way, the client's and the server's in both directions. *)
Theorem C83_matching : forall mode sid ckey hkey,
  mode = MODE_AUTH \/ mode = MODE_ENCR -> length sid = 16%nat -> octets sid -> length ckey = 16%nat -> octets ckey ->
  (forall server, exists s r, test_keys mode false server true sid ckey hkey = Some s /\
     test_keys mode false (negb server) false sid ckey hkey = Some r /\
     tk_hmac s = tk_hmac r /\ matching (tk_aes s) (tk_aes r)) /\
  (forall send send', exists c s rc rs, test_keys mode true false send sid ckey hkey = Some c /\
     test_keys mode true true send' sid ckey hkey = Some s /\ tk_hmac c = tk_hmac s /\
     tk_reply c = Some rc /\ tk_reply s = Some rs /\ matching (tk_aes c) (tk_aes s) /\ matching rs rc).
Proof.
  intros mode sid ckey hkey M S1 S2 C1 C2.
  assert (G : negb (Z.land mode (Z.lor MODE_AUTH MODE_ENCR) =? 0) = true) by (destruct M as [-> | ->]; reflexivity).
  destruct (C82_inverse sid ckey S1 S2 C1 C2) as (_ & L & O & _).
  assert (MT : matching (for_encryption (rijndaelEncrypt (rijndaelKeySetupEnc sid) ckey)) (for_decryption (rijndaelEncrypt (rijndaelKeySetupEnc sid) ckey))).
  { intros b B1 B2. apply (C82_inverse _ b L O B1 B2). }
  split; intros; unfold test_keys; rewrite G; cbv zeta;
    generalize (fst (cbc_enc (fun _ b => rijndaelEncrypt (rijndaelKeySetupEnc sid) b) sid (zeros 16) 2 hkey)); intros hm;
    revert MT; generalize (rijndaelEncrypt (rijndaelKeySetupEnc sid) ckey); intros bytes MT.
  - eexists _, _. split; [reflexivity|]. split; [reflexivity|]. split; [reflexivity|]. exact MT.
  - eexists _, _, _, _. split; [reflexivity|]. split; [reflexivity|]. split; [reflexivity|]. split; [reflexivity|]. split; [reflexivity|]. split; exact MT.
Qed.
Print Assumptions C83_matching.

(** Connections with different keys never share a test key, even for the same SID. *)
Theorem C83_separate : forall mode tw server send tw' server' send' sid ckey ckey' hkey hkey' k k',
  length sid = 16%nat -> octets sid -> length ckey = 16%nat -> octets ckey -> length ckey' = 16%nat -> octets ckey' ->
  test_keys mode tw server send sid ckey hkey = Some k -> test_keys mode tw' server' send' sid ckey' hkey' = Some k' ->
  tk_bytes k = tk_bytes k' -> ckey = ckey'.
Proof.
  intros mode tw server send tw' server' send' sid ckey ckey' hkey hkey' k k' S1 S2 C1 C2 D1 D2 E1 E2 E.
  assert (K : blk sid) by (split; auto). assert (CK : blk ckey) by (split; auto). assert (DK : blk ckey') by (split; auto).
  apply (cipher_inj sid _ _ K CK DK). rewrite <- (encrypt_spec sid ckey K CK), <- (encrypt_spec sid ckey' K DK).
  assert (T : forall tw server send c h k, test_keys mode tw server send sid c h = Some k -> tk_bytes k = rijndaelEncrypt (rijndaelKeySetupEnc sid) c).
  { clear. intros tw server send c h k E. unfold test_keys in E. destruct (negb _); [|discriminate]. cbv zeta in E.
    revert E. generalize (fst (cbc_enc (fun _ b => rijndaelEncrypt (rijndaelKeySetupEnc sid) b) sid (zeros 16) 2 h)). intros hm.
    generalize (rijndaelEncrypt (rijndaelKeySetupEnc sid) c). intros bytes E.
    destruct tw; [destruct server|destruct send]; apply (f_equal (fun o => match o with Some x => tk_bytes x | None => [] end)) in E; cbn [tk_bytes] in E; auto. }
  rewrite <- (T _ _ _ _ _ _ E1), <- (T _ _ _ _ _ _ E2). exact E.
Qed.
Print Assumptions C83_separate.

Example C83_case :
  match test_keys MODE_ENCR false true true fips_key fips_plain (fips_plain ++ fips_key), test_keys MODE_ENCR false false false fips_key fips_plain (fips_plain ++ fips_key) with
  | Some s, Some r => tk_bytes s = fips_cipher /\ tk_bytes r = fips_cipher /\ length (tk_hmac s) = 32%nat /\
                      eqb_octets (tk_aes s) (tk_aes r) = false /\ eqb_octets (firstn 16 (tk_hmac s)) fips_cipher = true
  | _, _ => False
  end.
Proof. vm_compute. repeat split. Qed.
