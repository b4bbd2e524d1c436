(** Proof library for [Base]. *)
From Coq Require Import ZArith List Bool Lia ZifyBool ZifyNat.
From Verif Require Import Base.
Import ListNotations.
Open Scope Z_scope.
Ltac Zify.zify_post_hook ::= Z.div_mod_to_equations.

Ltac dm := Z.div_mod_to_equations.

Lemma be_enc_length : forall n x, length (be_enc n x) = n.
Proof. induction n; intros; cbn [be_enc length]; auto. Qed.

Lemma be_enc_octets : forall n x, octets (be_enc n x).
Proof.
  unfold octets. induction n; intros; cbn [be_enc]; constructor; auto.
  red. apply Z.mod_pos_bound. lia.
Qed.

Lemma fold_be : forall l a,
  fold_left (fun a b => a * 256 + b) l a
  = a * 256 ^ Z.of_nat (length l) + fold_left (fun a b => a * 256 + b) l 0.
Proof.
  induction l as [|b l IH]; intros a; cbn [fold_left length].
  - rewrite Z.mul_1_r. lia.
  - rewrite IH. rewrite (IH (0 * 256 + b)).
    rewrite Nat2Z.inj_succ, Z.pow_succ_r by lia. ring.
Qed.

Lemma be_dec_cons : forall b l, be_dec (b :: l) = b * 256 ^ Z.of_nat (length l) + be_dec l.
Proof.
  intros. unfold be_dec. cbn [fold_left]. rewrite fold_be. ring.
Qed.

Lemma be_dec_nil : be_dec [] = 0.
Proof. reflexivity. Qed.

Lemma pow256_pos : forall n, 0 < 256 ^ Z.of_nat n.
Proof. intros. apply Z.pow_pos_nonneg; lia. Qed.

Lemma be_dec_enc_mod : forall n x, be_dec (be_enc n x) = x mod 256 ^ Z.of_nat n.
Proof.
  induction n; intros; cbn [be_enc].
  - rewrite be_dec_nil. change (256 ^ Z.of_nat 0) with 1. now rewrite Z.mod_1_r.
  - rewrite be_dec_cons, be_enc_length, IHn.
    rewrite Nat2Z.inj_succ, Z.pow_succ_r by lia.
    pose proof (pow256_pos n) as Hp.
    set (p := 256 ^ Z.of_nat n) in *.
    rewrite (Z.mul_comm 256 p), Z.rem_mul_r by lia. ring.
Qed.

Lemma be_dec_enc : forall n x, 0 <= x < 256 ^ Z.of_nat n -> be_dec (be_enc n x) = x.
Proof. intros. rewrite be_dec_enc_mod. apply Z.mod_small; auto. Qed.

Lemma be_dec_bound : forall l, octets l -> 0 <= be_dec l < 256 ^ Z.of_nat (length l).
Proof.
  induction 1 as [|b l Hb Hl IH].
  - rewrite be_dec_nil. cbn. lia.
  - rewrite be_dec_cons. cbn [length]. rewrite Nat2Z.inj_succ, Z.pow_succ_r by lia.
    pose proof (pow256_pos (length l)). red in Hb. nia.
Qed.

Lemma be_enc_dec : forall l, octets l -> be_enc (length l) (be_dec l) = l.
Proof.
  induction 1 as [|b l Hb Hl IH]; cbn [length be_enc]; auto.
  pose proof (pow256_pos (length l)) as Hp.
  pose proof (be_dec_bound l Hl) as Hd.
  rewrite be_dec_cons.
  f_equal.
  - rewrite Z.add_comm, Z.div_add by lia.
    rewrite (Z.div_small (be_dec l)) by lia. red in Hb. apply Z.mod_small. lia.
  - etransitivity; [|exact IH]. clear IH. revert Hp. generalize (be_dec l). intros d Hp.
    assert (G: forall n, (n <= length l)%nat ->
       be_enc n (b * 256 ^ Z.of_nat (length l) + d) = be_enc n d).
    { induction n; intros; cbn [be_enc]; auto. rewrite IHn by lia. f_equal.
      replace (Z.of_nat (length l)) with (Z.of_nat (length l - S n) + 1 + Z.of_nat n) by lia.
      rewrite !Z.pow_add_r by lia. change (256^1) with 256.
      replace (b * (256 ^ Z.of_nat (length l - S n) * 256 * 256 ^ Z.of_nat n) + d)
        with (d + (b * 256 ^ Z.of_nat (length l - S n) * 256) * 256 ^ Z.of_nat n) by ring.
      pose proof (pow256_pos n).
      rewrite Z.div_add by lia. rewrite Z.add_mod, Z.mod_mul, Z.add_0_r, Z.mod_mod by lia. auto. }
    apply G. lia.
Qed.

Lemma be_dec_inj : forall a b, octets a -> octets b -> length a = length b ->
  be_dec a = be_dec b -> a = b.
Proof.
  intros a b Ha Hb L E. rewrite <- (be_enc_dec a Ha), <- (be_enc_dec b Hb). congruence.
Qed.

(** ** sub / put *)

Lemma sub_length : forall off len buf, (off + len <= length buf)%nat -> length (sub off len buf) = len.
Proof. intros. unfold sub. rewrite firstn_length, skipn_length. lia. Qed.

Lemma sub_octets : forall off len buf, octets buf -> octets (sub off len buf).
Proof.
  unfold octets, sub. intros off len buf H.
  rewrite Forall_forall in *. intros x Hx. apply H.
  rewrite <- (firstn_skipn off buf). apply in_or_app. right.
  rewrite <- (firstn_skipn len (skipn off buf)). apply in_or_app. now left.
Qed.

Lemma put_length : forall off bs buf, (off + length bs <= length buf)%nat ->
  length (put off bs buf) = length buf.
Proof.
  intros. unfold put. rewrite !app_length, firstn_length, skipn_length. lia.
Qed.

Lemma sub_put_same : forall off len bs buf,
  len = length bs -> (off + length bs <= length buf)%nat -> sub off len (put off bs buf) = bs.
Proof.
  intros. subst len. unfold sub, put.
  rewrite skipn_app. rewrite skipn_all2 by (rewrite firstn_length; lia).
  rewrite firstn_length. replace (off - Nat.min off (length buf))%nat with 0%nat by lia.
  cbn [skipn app]. rewrite firstn_app, firstn_all.
  replace (length bs - length bs)%nat with 0%nat by lia. cbn [firstn]. now rewrite app_nil_r.
Qed.


Lemma nth_error_firstn_lt : forall (A:Type) (l : list A) n i, (i < n)%nat ->
  nth_error (firstn n l) i = nth_error l i.
Proof.
  induction l; intros n i H; destruct n; try lia; cbn [firstn]; auto.
  destruct i; cbn; auto. apply IHl. lia.
Qed.

Lemma nth_error_skipn_add : forall (A:Type) (l : list A) n i,
  nth_error (skipn n l) i = nth_error l (n + i).
Proof.
  induction l; intros n i; destruct n; cbn [skipn]; auto. 
  - now rewrite !(proj2 (nth_error_None _ _)) by (cbn; lia).
  - cbn. apply IHl.
Qed.

Lemma nth_error_sub : forall i off len buf, (i < len)%nat ->
  nth_error (sub off len buf) i = nth_error buf (off + i).
Proof.
  intros. unfold sub. rewrite nth_error_firstn_lt by auto. apply nth_error_skipn_add.
Qed.

Lemma nth_error_sub_out : forall i off len buf, (len <= i)%nat ->
  nth_error (sub off len buf) i = None.
Proof.
  intros. apply nth_error_None. unfold sub. rewrite firstn_length. lia.
Qed.

Lemma nth_error_put : forall i off bs buf, (off + length bs <= length buf)%nat ->
  nth_error (put off bs buf) i =
  if (Nat.leb off i && Nat.ltb i (off + length bs))%bool
  then nth_error bs (i - off) else nth_error buf i.
Proof.
  intros i off bs buf H. unfold put.
  destruct (Nat.leb_spec off i) as [Ho|Ho]; cbn [andb].
  - rewrite nth_error_app2 by (rewrite firstn_length; lia).
    rewrite firstn_length. replace (Nat.min off (length buf)) with off by lia.
    destruct (Nat.ltb_spec i (off + length bs)).
    + rewrite nth_error_app1 by lia. auto.
    + rewrite nth_error_app2 by lia. rewrite nth_error_skipn_add. f_equal. lia.
  - rewrite nth_error_app1 by (rewrite firstn_length; lia).
    apply nth_error_firstn_lt. lia.
Qed.

Lemma nth_error_ext : forall (A:Type) (a b : list A),
  (forall i, nth_error a i = nth_error b i) -> a = b.
Proof.
  induction a; destruct b; intros H; auto.
  - specialize (H 0%nat). discriminate.
  - specialize (H 0%nat). discriminate.
  - f_equal.
    + specialize (H 0%nat). cbn in H. congruence.
    + apply IHa. intros i. apply (H (S i)).
Qed.

Lemma sub_put_disjoint : forall o1 l1 o2 bs buf,
  (o1 + l1 <= o2 \/ o2 + length bs <= o1)%nat -> (o2 + length bs <= length buf)%nat ->
  sub o1 l1 (put o2 bs buf) = sub o1 l1 buf.
Proof.
  intros. apply nth_error_ext. intros i.
  destruct (Nat.lt_ge_cases i l1).
  - rewrite !nth_error_sub, nth_error_put by auto.
    destruct (Nat.leb_spec o2 (o1 + i)); cbn [andb]; auto.
    destruct (Nat.ltb_spec (o1 + i) (o2 + length bs)); auto. lia.
  - rewrite !nth_error_sub_out; auto.
Qed.

(** writing over a larger window that contains the read one *)
Lemma sub_put_inside : forall o1 l1 o2 bs buf,
  (o2 <= o1)%nat -> (o1 + l1 <= o2 + length bs)%nat -> (o2 + length bs <= length buf)%nat ->
  sub o1 l1 (put o2 bs buf) = sub (o1 - o2) l1 bs.
Proof.
  intros. apply nth_error_ext. intros i.
  destruct (Nat.lt_ge_cases i l1).
  - rewrite !nth_error_sub, nth_error_put by auto.
    destruct (Nat.leb_spec o2 (o1 + i)); cbn [andb]; try lia.
    destruct (Nat.ltb_spec (o1 + i) (o2 + length bs)); try lia. f_equal. lia.
  - rewrite !nth_error_sub_out; auto.
Qed.

Lemma byte_sub : forall off buf, (off < length buf)%nat -> sub off 1 buf = [byte off buf].
Proof.
  intros. unfold byte. apply nth_error_ext. intros i. destruct i.
  - rewrite nth_error_sub by lia. replace (off + 0)%nat with off by lia. cbn.
    apply nth_error_nth'; auto.
  - rewrite nth_error_sub_out by lia. destruct i; auto.
Qed.

Lemma byte_is_be : forall off buf, (off < length buf)%nat -> byte off buf = be_dec (sub off 1 buf).
Proof. intros. rewrite byte_sub by auto. cbn. destruct (byte off buf); auto. Qed.

Lemma put_octets : forall off bs buf, octets bs -> octets buf -> octets (put off bs buf).
Proof.
  unfold octets, put. intros off bs buf H1 H2.
  rewrite !Forall_app. repeat split; auto.
  - rewrite <- (firstn_skipn off buf) in H2. rewrite Forall_app in H2. tauto.
  - rewrite <- (firstn_skipn (off + length bs) buf) in H2. rewrite Forall_app in H2. tauto.
Qed.

Lemma zeros_length : forall n, length (zeros n) = n.
Proof. intros; apply repeat_length. Qed.

Lemma zeros_octets : forall n, octets (zeros n).
Proof. induction n; cbn; constructor; auto. red. lia. Qed.

Lemma eqb_octets_spec : forall a b, eqb_octets a b = true <-> a = b.
Proof.
  induction a; destruct b; cbn; split; intros H; try discriminate; auto.
  - apply andb_prop in H as [H1 H2]. apply Z.eqb_eq in H1. apply IHa in H2. congruence.
  - inversion H; subst. rewrite Z.eqb_refl. now apply IHa.
Qed.

Lemma eqb_octets_refl : forall a, eqb_octets a a = true.
Proof. intros; now apply eqb_octets_spec. Qed.

Lemma byte_put_in : forall i off bs buf, (off <= i)%nat -> (i < off + length bs)%nat ->
  (off + length bs <= length buf)%nat -> byte i (put off bs buf) = byte (i - off) bs.
Proof.
  intros. unfold byte. 
  assert (E: nth_error (put off bs buf) i = nth_error bs (i - off)).
  { rewrite nth_error_put by auto.
    destruct (Nat.leb_spec off i); try lia. destruct (Nat.ltb_spec i (off + length bs)); try lia. auto. }
  rewrite <- (nth_default_eq i), <- (nth_default_eq (i-off)). unfold nth_default. now rewrite E.
Qed.

Lemma byte_put_out : forall i off bs buf, (i < off \/ off + length bs <= i)%nat ->
  (off + length bs <= length buf)%nat -> byte i (put off bs buf) = byte i buf.
Proof.
  intros. unfold byte.
  assert (E: nth_error (put off bs buf) i = nth_error buf i).
  { rewrite nth_error_put by auto.
    destruct (Nat.leb_spec off i); cbn [andb]; auto.
    destruct (Nat.ltb_spec i (off + length bs)); auto. lia. }
  rewrite <- (nth_default_eq i), <- (nth_default_eq i buf). unfold nth_default. now rewrite E.
Qed.

Lemma byte_bound : forall i buf, octets buf -> 0 <= byte i buf < 256.
Proof.
  unfold byte, octets. intros i buf H.
  destruct (Nat.lt_ge_cases i (length buf)).
  - rewrite Forall_forall in H. apply (H (nth i buf 0)). now apply nth_In.
  - rewrite nth_overflow by lia. lia.
Qed.
