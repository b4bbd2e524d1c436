(** The loop over mask lengths finds the longest matching prefix. *)
From Coq Require Import ZArith List Bool Lia.
From Coq Require Import ZifyBool ZifyNat.
From Verif Require Import Base BaseLemmas Control_Proofs File_Proofs Policy_Model Policy_Spec.
Import ListNotations.
Open Scope Z_scope.
Ltac Zify.zify_post_hook ::= Z.div_mod_to_equations.

Lemma nth_be_enc : forall n x j, (j < n)%nat -> nth j (be_enc n x) 0 = (x / 256 ^ Z.of_nat (n - 1 - j)) mod 256.
Proof.
  induction n as [|n IH]; intros x j H; [lia|]. cbn [be_enc]. destruct j as [|j]; cbn [nth].
  - do 3 f_equal. lia.
  - rewrite IH by lia. do 3 f_equal. lia.
Qed.

Definition msk (w k A : Z) : Z := Z.shiftl (Z.shiftr A (w - k)) (w - k).
Lemma msk_bit : forall w k A i, 0 <= i -> k <= w -> Z.testbit (msk w k A) i = (w - k <=? i) && Z.testbit A i.
Proof.
  intros w k A i Hi Hk. unfold msk. rewrite Z.shiftl_spec by lia.
  destruct (Z.leb_spec (w - k) i); cbn [andb].
  - rewrite Z.shiftr_spec by lia. f_equal. lia.
  - apply Z.testbit_neg_r. lia.
Qed.

Lemma byte_bits : forall X k i, 0 <= i -> 0 <= k -> Z.testbit ((X / 256 ^ k) mod 256) i = (i <? 8) && Z.testbit X (i + 8 * k).
Proof.
  intros X k i Hi Hk. change 256 with (2^8) at 2. replace (256 ^ k) with (2 ^ (8 * k)) by (change 256 with (2^8); rewrite <- Z.pow_mul_r by lia; reflexivity).
  rewrite <- Z.shiftr_div_pow2 by lia. destruct (Z.ltb_spec i 8); cbn [andb].
  - rewrite Z.mod_pow2_bits_low by lia. rewrite Z.shiftr_spec by lia. reflexivity.
  - apply Z.mod_pow2_bits_high. lia.
Qed.

Lemma upd_nth : forall (A : Type) (l : list A) i v j d, (i < length l)%nat -> nth j (upd i v l) d = if (j =? i)%nat then v else nth j l d.
Proof.
  induction l as [|x l IH]; intros i v j d H; cbn [length] in H; [lia|]. destruct i as [|i], j as [|j]; cbn [upd nth Nat.eqb]; auto. apply IH. lia.
Qed.
Lemma upd_length : forall (A : Type) (l : list A) i v, length (upd i v l) = length l.
Proof. induction l as [|x l IH]; intros [|i] v; cbn [upd length]; auto. Qed.
Lemma nth_ext0 : forall (a b : list Z), length a = length b -> (forall j, (j < length a)%nat -> nth j a 0 = nth j b 0) -> a = b.
Proof. intros a b L H. apply (nth_ext a b 0 0); auto. Qed.

Lemma mask_step : forall (s m : nat) A z, (m < 8 * s)%nat ->
  let w := 8 * Z.of_nat s in let nb := Z.of_nat m / 8 in let nbits := Z.of_nat m mod 8 in
  let a := be_enc s (msk w (Z.of_nat m + 1) A) ++ z in
  upd (Z.to_nat nb) (Z.land (byte (Z.to_nat nb) a) (Z.shiftl 255 (8 - nbits))) a = be_enc s (msk w (Z.of_nat m) A) ++ z.
Proof.
  intros s m A z H w nb nbits a.
  assert (La: length a = (s + length z)%nat) by (unfold a; rewrite app_length, be_enc_length; lia).
  assert (Hnb: (Z.to_nat nb < s)%nat) by (unfold nb; lia).
  apply nth_ext0; [rewrite upd_length, La, app_length, be_enc_length; lia|].
  rewrite upd_length, La. intros j Hj. rewrite upd_nth by lia.
  destruct (Nat.eqb_spec j (Z.to_nat nb)) as [->|Nj].
  - unfold byte, a. rewrite !app_nth1 by (rewrite be_enc_length; lia). rewrite !nth_be_enc by lia.
    apply Z.bits_inj'. intros i Hi. rewrite Z.land_spec, !byte_bits, !msk_bit by (unfold w; lia).
    destruct (Z.ltb_spec i 8); cbn [andb]; [|reflexivity].
    rewrite Z.shiftl_spec by lia.
    assert (B: Z.testbit 255 (i - (8 - nbits)) = (8 - nbits <=? i)).
    { destruct (Z.leb_spec (8 - nbits) i).
      - change 255 with (Z.ones 8). apply Z.ones_spec_low. unfold nbits in *. lia.
      - apply Z.testbit_neg_r. lia. }
    rewrite B. set (k := Z.of_nat (s - 1 - Z.to_nat nb)).
    assert (K: k = Z.of_nat s - 1 - nb) by (unfold k; unfold nb in *; lia).
    destruct (Z.testbit A (i + 8 * k)); rewrite ?andb_true_r, ?andb_false_r; auto.
    unfold w. unfold nb, nbits in *. clear - K. destruct (Z.leb_spec (8 * Z.of_nat s - (Z.of_nat m + 1)) (i + 8 * k)), (Z.leb_spec (8 - Z.of_nat m mod 8) i), (Z.leb_spec (8 * Z.of_nat s - Z.of_nat m) (i + 8 * k)); cbn [andb]; auto; lia.
  - destruct (Nat.lt_ge_cases j s) as [Js|Js].
    + unfold a. rewrite !app_nth1 by (rewrite be_enc_length; lia). rewrite !nth_be_enc by lia.
      apply Z.bits_inj'. intros i Hi. rewrite !byte_bits, !msk_bit by (unfold w; lia).
      destruct (Z.ltb_spec i 8); cbn [andb]; [|reflexivity]. f_equal. unfold w, nb in *.
      destruct (Z.leb_spec (8 * Z.of_nat s - (Z.of_nat m + 1)) (i + 8 * Z.of_nat (s - 1 - j))), (Z.leb_spec (8 * Z.of_nat s - Z.of_nat m) (i + 8 * Z.of_nat (s - 1 - j))); auto; lia.
    + unfold a. rewrite !app_nth2 by (rewrite be_enc_length; lia). rewrite !be_enc_length. reflexivity.
Qed.

(** keys are compared exactly *)
Lemma pid_eqb_spec : forall a b, pid_eqb a b = true <-> a = b.
Proof.
  intros a b. destruct a, b; cbn [pid_eqb]; split; intros E; try discriminate; auto; try (injection E as -> -> ->) || idtac.
  - apply andb_prop in E as (E & E3). apply andb_prop in E as (E1 & E2). apply Z.eqb_eq in E1, E2. apply eqb_octets_spec in E3. congruence.
  - rewrite !Z.eqb_refl, eqb_octets_refl. reflexivity.
  - apply eqb_octets_spec in E. congruence.
  - injection E as ->. apply eqb_octets_refl.
Qed.
Lemma fetch_some : forall l k v, ident_fetch k l = Some v -> In (k, v) l.
Proof.
  induction l as [|[k' v'] l IH]; intros k v E; cbn [ident_fetch] in E; [discriminate|].
  destruct (pid_eqb k k') eqn:Q; [apply pid_eqb_spec in Q as ->; injection E as ->; left; auto|right; auto].
Qed.
Lemma fetch_none : forall l k, ident_fetch k l = None -> forall v, ~ In (k, v) l.
Proof.
  induction l as [|[k' v'] l IH]; intros k E v I; cbn [ident_fetch] in E; [destruct I|].
  destruct (pid_eqb k k') eqn:Q; [discriminate|]. destruct I as [I|I]; [|eapply IH; eauto]. injection I as -> ->.
  assert (pid_eqb k k = true) by (apply pid_eqb_spec; reflexivity). congruence.
Qed.
Lemma fetch_in : forall l k v, NoDup (map fst l) -> In (k, v) l -> ident_fetch k l = Some v.
Proof.
  induction l as [|[k' v'] l IH]; intros k v N I; cbn [ident_fetch] in *; [destruct I|]. cbn [map fst] in N. inversion N; subst.
  destruct (pid_eqb k k') eqn:Q.
  - apply pid_eqb_spec in Q as ->. destruct I as [I|I]; [congruence|]. exfalso. apply H1. change k' with (fst (k', v)). apply in_map. auto.
  - destruct I as [I|I]; [|apply IH; auto]. injection I as -> ->. assert (pid_eqb k k = true) by (apply pid_eqb_spec; reflexivity). congruence.
Qed.

Lemma msk_div : forall w k A, k <= w -> msk w k A = A / 2^(w-k) * 2^(w-k).
Proof. intros. unfold msk. rewrite Z.shiftl_mul_pow2, Z.shiftr_div_pow2 by lia. reflexivity. Qed.

(** an entry matches at mask length m exactly if its network contains the address *)
Lemma key_match : forall (s : nat) m p A, net_key_ok m (Z.of_nat s) p -> 0 <= A < 2^(8 * Z.of_nat s) ->
  (p = be_enc s (msk (8 * Z.of_nat s) m A) ++ zeros (16 - s) <-> contains (8 * Z.of_nat s) m (be_dec (firstn s p)) A).
Proof.
  intros s m p A (s' & Es & Hs & Hm & Op & Lp & Zp & Md) HA. apply Nat2Z.inj in Es. subst s'.
  set (w := 8 * Z.of_nat s) in *. set (P := be_dec (firstn s p)) in *. unfold contains.
  assert (G: 0 < 2^(w-m)) by (apply Z.pow_pos_nonneg; lia).
  assert (Of: octets (firstn s p)) by (pose proof (sub_octets 0 s p Op); exact H).
  assert (Lf: length (firstn s p) = s) by (rewrite firstn_length; lia).
  assert (W: 256 ^ Z.of_nat s = 2^w) by (unfold w; rewrite Z.pow_mul_r by lia; reflexivity).
  rewrite msk_div by lia. set (g := 2^(w-m)) in *. clearbody g.
  assert (B: 0 <= A / g * g < 256 ^ Z.of_nat s) by (rewrite W; pose proof (Z.mul_div_le A g G); pose proof (Z.div_pos A g ltac:(lia) G); split; [apply Z.mul_nonneg_nonneg; lia|lia]).
  split.
  - intros E. unfold P. rewrite E. rewrite firstn_app, be_enc_length, Nat.sub_diag. cbn [firstn]. rewrite app_nil_r, firstn_all2 by (rewrite be_enc_length; lia).
    rewrite be_dec_enc by exact B. rewrite Z.div_mul by lia. reflexivity.
  - intros E. rewrite <- (firstn_skipn s p), Zp. f_equal. rewrite <- (be_enc_dec (firstn s p) Of), Lf. fold P. f_equal.
    rewrite E. clearbody P. pose proof (Z.div_mod P g ltac:(lia)). rewrite Md in H. nia.
Qed.

Lemma net_loop_spec : forall (s : nat) A l, (s = 4 \/ s = 16)%nat -> 0 <= A < 2^(8 * Z.of_nat s) -> idents_ok l ->
  let w := 8 * Z.of_nat s in
  forall m, Z.of_nat m <= w -> forall a, (Z.of_nat m = w /\ a = be_enc s A ++ zeros (16 - s)) \/ (Z.of_nat m < w /\ a = be_enc s (msk w (Z.of_nat m + 1) A) ++ zeros (16 - s)) ->
  match net_loop m (Z.of_nat s) a l with
  | Some c => exists k P, 1 <= k <= Z.of_nat m /\ assigned l w k P c /\ contains w k P A /\ forall k' P' c', k < k' <= Z.of_nat m -> assigned l w k' P' c' -> ~ contains w k' P' A
  | None => forall k' P' c', 1 <= k' <= Z.of_nat m -> assigned l w k' P' c' -> ~ contains w k' P' A
  end.
Proof.
  intros s A l Hs HA (Nd & Ok) w. induction m as [|m IH]; intros Hm a Ha.
  - cbn [net_loop]. intros; lia.
  - cbn [net_loop].
    set (a' := if Z.of_nat (S m) / 8 <? Z.of_nat s then upd (Z.to_nat (Z.of_nat (S m) / 8)) (Z.land (byte (Z.to_nat (Z.of_nat (S m) / 8)) a) (Z.shiftl 255 (8 - Z.of_nat (S m) mod 8))) a else a).
    assert (Ea: a' = be_enc s (msk w (Z.of_nat (S m)) A) ++ zeros (16 - s)).
    { unfold a'. destruct (Z.ltb_spec (Z.of_nat (S m) / 8) (Z.of_nat s)).
      - destruct Ha as [[E _]|[E ->]]; [unfold w in *; lia|]. apply mask_step. unfold w in *. lia.
      - destruct Ha as [[E ->]|[E ->]]; [|unfold w in *; lia]. rewrite E. unfold msk. rewrite Z.sub_diag. reflexivity. }
    clearbody a'. subst a'.
    destruct (ident_fetch _ l) as [c|] eqn:F.
    + apply fetch_some in F. pose proof (Ok _ _ _ _ F) as K.
      exists (Z.of_nat (S m)), (be_dec (firstn s (be_enc s (msk w (Z.of_nat (S m)) A) ++ zeros (16 - s)))).
      split; [lia|]. split; [exists s; eauto|]. split; [|intros; lia].
      apply (proj1 (key_match s _ _ A K HA)). reflexivity.
    + assert (No: forall P' c', assigned l w (Z.of_nat (S m)) P' c' -> ~ contains w (Z.of_nat (S m)) P' A).
      { intros P' c' (s' & p & I & Es & ->) C. assert (s' = s) by (unfold w in Es; lia). subst s'. pose proof (Ok _ _ _ _ I) as K.
        apply (proj2 (key_match s _ _ A K HA)) in C. rewrite C in I. exact (fetch_none _ _ F _ I). }
      specialize (IH ltac:(lia) (be_enc s (msk w (Z.of_nat (S m)) A) ++ zeros (16 - s))).
      destruct (net_loop m _ _ l) as [c|].
      * destruct IH as (k & P & K1 & K2 & K3 & K4). { right. split; [lia|]. do 3 f_equal. lia. }
        exists k, P. split; [lia|]. split; auto. split; auto. intros k' P' c' R As. destruct (Z.eq_dec k' (Z.of_nat (S m))) as [->|]; [eapply No; eauto|]. eapply K4; eauto. lia.
      * intros k' P' c' R As. destruct (Z.eq_dec k' (Z.of_nat (S m))) as [->|]; [eapply No; eauto|]. eapply IH; eauto; [|lia]. right. split; [lia|]. do 3 f_equal. lia.
Qed.

Lemma be_dec_app : forall a b, be_dec (a ++ b) = be_dec a * 256 ^ Z.of_nat (length b) + be_dec b.
Proof.
  induction a as [|x a IH]; intros b; cbn [app]; [rewrite be_dec_nil; lia|]. rewrite !be_dec_cons, IH, app_length, Nat2Z.inj_add, Z.pow_add_r by lia. lia.
Qed.
Lemma v4mapped_spec : forall a, octets a -> length a = 16%nat -> v4mapped a = (be_dec a / 2^32 =? 65535) /\ be_dec (sub 12 4 a) = be_dec a mod 2^32.
Proof.
  intros a O L.
  assert (E: a = sub 0 12 a ++ sub 12 4 a) by (rewrite <- (sub_app_split 0 12 4); symmetry; apply sub_all; exact L).
  pose proof (be_dec_bound (sub 12 4 a) (sub_octets _ _ _ O)) as B. rewrite sub_length in B by lia. change (256 ^ Z.of_nat 4) with (2^32) in B.
  assert (D: be_dec a = be_dec (sub 0 12 a) * 2^32 + be_dec (sub 12 4 a)).
  { rewrite E at 1. rewrite be_dec_app, sub_length by lia. reflexivity. }
  assert (H: be_dec a / 2^32 = be_dec (sub 0 12 a)) by (rewrite D; lia).
  split; [|rewrite D; lia]. rewrite H. unfold v4mapped.
  apply eq_true_iff_eq. rewrite andb_true_iff, !eqb_octets_spec, Z.eqb_eq.
  assert (S: sub 0 12 a = sub 0 10 a ++ sub 10 2 a) by (apply (sub_app_split 0 10 2)).
  split.
  - intros (E1 & E2). rewrite S, E1, E2. reflexivity.
  - intros E1. assert (Q: sub 0 12 a = zeros 10 ++ [255; 255]).
    { apply be_dec_inj; [apply sub_octets; auto|repeat constructor; lia|rewrite sub_length by lia; reflexivity|rewrite E1; reflexivity]. }
    split.
    + replace (sub 0 10 a) with (sub 0 10 (sub 0 12 a)); [rewrite Q; reflexivity|]. unfold sub. cbn [skipn]. rewrite firstn_firstn. reflexivity.
    + replace (sub 10 2 a) with (sub 10 2 (sub 0 12 a)); [rewrite Q; reflexivity|]. unfold sub. change (skipn 0 a) with a. rewrite skipn_firstn_comm, firstn_firstn. reflexivity.
Qed.

Lemma node_from_addr_spec : forall l sa c w A, idents_ok l -> sa_wf sa -> seen_as sa = Some (w, A) -> node_from_addr l sa = Some c ->
  (exists m P, assigned l w m P c /\ contains w m P A /\ forall m' P' c', assigned l w m' P' c' -> contains w m' P' A -> m' <= m) \/
  (c = node_default l /\ forall m' P' c', assigned l w m' P' c' -> ~ contains w m' P' A).
Proof.
  intros l sa c w A Ok Wf Seen.
  assert (G: exists s a, (s = 4 \/ s = 16)%nat /\ w = 8 * Z.of_nat s /\ 0 <= A < 2^w /\ a = be_enc s A ++ zeros (16 - s) /\
     node_from_addr l sa = match net_loop (Z.to_nat (Z.of_nat s * 8)) (Z.of_nat s) a l with Some v => Some v | None => Some (node_default l) end).
  { destruct sa as [a|a|]; cbn [seen_as] in Seen; [| |discriminate].
    - destruct Wf as (O & L). injection Seen as <- <-. exists 4%nat, (a ++ zeros 12). split; [auto|]. split; [reflexivity|].
      pose proof (be_dec_bound a O) as B. rewrite L in B. split; [exact B|]. split; [|reflexivity]. f_equal. rewrite <- L. symmetry. apply be_enc_dec; auto.
    - destruct Wf as (O & L). destruct (v4mapped_spec a O L) as (V1 & V2). unfold node_from_addr. rewrite V1.
      destruct (Z.eqb_spec (be_dec a / 2^32) 65535) as [E|E].
      + assert (w = 32) by congruence. assert (EA: A = be_dec (sub 12 4 a)) by congruence. subst w A.
        exists 4%nat, (sub 12 4 a ++ zeros 12). split; [auto|]. split; [reflexivity|]. split; [rewrite V2; apply Z.mod_pos_bound; lia|]. split; [|reflexivity].
        f_equal. pose proof (be_enc_dec (sub 12 4 a) (sub_octets _ _ _ O)) as Q. rewrite sub_length in Q by lia. auto.
      + assert (w = 128) by congruence. assert (EA: A = be_dec a) by congruence. subst w A. exists 16%nat, a. split; [auto|]. split; [reflexivity|]. pose proof (be_dec_bound a O) as B. rewrite L in B. split; [exact B|]. split; [|reflexivity].
        rewrite app_nil_r. rewrite <- L. symmetry. apply be_enc_dec; auto. }
  destruct G as (s & a & Hs & -> & HA & -> & ->).
  pose proof (net_loop_spec s A l Hs HA Ok (Z.to_nat (Z.of_nat s * 8)) ltac:(lia) (be_enc s A ++ zeros (16 - s)) ltac:(left; split; [lia|reflexivity])) as N.
  assert (R: forall k P c', assigned l (8 * Z.of_nat s) k P c' -> 1 <= k <= 8 * Z.of_nat s).
  { intros k P c' (s' & p & I & Es & _). destruct Ok as (_ & Ok). destruct (Ok _ _ _ _ I) as (_ & _ & _ & Hm & _). lia. }
  destruct (net_loop _ _ _ l) as [v|]; intros E; injection E as <-.
  - left. destruct N as (k & P & K1 & K2 & K3 & K4). exists k, P. split; auto. split; auto. intros m' P' c' As Co.
    destruct (Z.le_gt_cases m' k); auto. exfalso. eapply (K4 m' P' c'); eauto. pose proof (R _ _ _ As). lia.
  - right. split; auto. intros m' P' c' As. apply (N m' P' c'); auto. pose proof (R _ _ _ As). lia.
Qed.
