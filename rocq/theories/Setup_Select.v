(** Proofs about the choice of the mode. *)
From Coq Require Import ZArith List Bool Lia ZifyBool ZifyNat.
From Verif Require Import Base BaseLemmas Time_Model Sched_Model Wire_Model Wire_Spec Wire_Proofs Puts Control_Model Control_Spec Control_Proofs Control_Integrity Setup_Model Setup_Spec.
Import ListNotations.
Open Scope Z_scope.

(** ** Mode selection *)

Lemma land_bit : forall x i, 0 <= i -> (Z.land x (2^i) =? 0) = negb (Z.testbit x i) /\ (Z.testbit x i = true <-> Z.land x (2^i) = 2^i).
Proof.
  intros x i Hi.
  assert (X: Z.land x (2^i) = if Z.testbit x i then 2^i else 0).
  { apply Z.bits_inj'. intros n Hn. rewrite Z.land_spec, Z.pow2_bits_eqb by lia.
    destruct (Z.eqb_spec i n) as [<-|N].
    - destruct (Z.testbit x i); cbn [andb]; [rewrite Z.pow2_bits_true by lia|rewrite Z.bits_0]; reflexivity.
    - rewrite andb_false_r. destruct (Z.testbit x i); [rewrite Z.pow2_bits_false by lia; reflexivity|now rewrite Z.bits_0]. }
  assert (0 < 2^i) by (apply Z.pow_pos_nonneg; lia).
  rewrite X. destruct (Z.testbit x i); split; try split; intros; try reflexivity; try lia; try discriminate.
Qed.

Lemma avail_bit : forall offered req (haspf : bool) i, (i = 0 \/ i = 1 \/ i = 2 \/ i = 3) ->
  Z.testbit (if haspf then Z.land offered req else Z.ldiff (Z.land offered req) DOCIPHER_CNTRL) i =
  Z.testbit offered i && Z.testbit req i && (haspf || (i =? 0)).
Proof.
  intros offered req haspf i Hi. destruct haspf; cbn [orb].
  - now rewrite Z.land_spec, andb_true_r.
  - rewrite Z.ldiff_spec, Z.land_spec. destruct Hi as [->|[->|[->| ->]]]; cbn; reflexivity.
Qed.

Lemma usable_bit : forall offered req haspf tw i, (i = 0 \/ i = 1 \/ i = 2 \/ i = 3) ->
  (usable offered req haspf tw (2^i) <->
   Z.testbit (if haspf then Z.land offered req else Z.ldiff (Z.land offered req) DOCIPHER_CNTRL) i = true /\ (i = 3 -> tw = true)).
Proof.
  intros offered req haspf tw i Hi. rewrite avail_bit by auto. unfold usable, contains, single_mode.
  pose proof (proj2 (land_bit offered i ltac:(lia))). pose proof (proj2 (land_bit req i ltac:(lia))).
  rewrite <- H, <- H0.
  destruct Hi as [->|[->|[->| ->]]]; cbn [Z.pow Z.pow_pos Pos.iter Z.mul Pos.mul Z.eqb Pos.eqb];
    destruct (Z.testbit offered _), (Z.testbit req _), haspf, tw; cbn [andb orb]; intuition (try lia; try congruence).
Qed.

Lemma select_sound : forall offered req haspf tw policy m, select_mode offered req haspf tw policy = SelMode m ->
  usable offered req haspf tw m /\ fst (policy m) = true /\
  forall m', usable offered req haspf tw m' -> (strength m < strength m')%nat -> fst (policy m') = false.
Proof.
  intros offered req haspf tw policy m S. unfold select_mode in S.
  set (av := if haspf then _ else _) in S.
  pose proof (usable_bit offered req haspf tw 0 ltac:(lia)) as U0.
  pose proof (usable_bit offered req haspf tw 1 ltac:(lia)) as U1.
  pose proof (usable_bit offered req haspf tw 2 ltac:(lia)) as U2.
  pose proof (usable_bit offered req haspf tw 3 ltac:(lia)) as U3.
  fold av in U0, U1, U2, U3.
  change (2^0) with 1 in U0. change (2^1) with 2 in U1. change (2^2) with 4 in U2. change (2^3) with 8 in U3.
  rewrite (proj1 (land_bit av 2 ltac:(lia)) : (Z.land av MODE_ENCR =? 0) = _) in S.
  rewrite (proj1 (land_bit av 1 ltac:(lia)) : (Z.land av MODE_AUTH =? 0) = _) in S.
  rewrite (proj1 (land_bit av 3 ltac:(lia)) : (Z.land av MODE_MIXED =? 0) = _) in S.
  rewrite (proj1 (land_bit av 0 ltac:(lia)) : (Z.land av MODE_OPEN =? 0) = _) in S.
  rewrite !negb_involutive in S.
  assert (SG: forall m', usable offered req haspf tw m' -> m' = 1 \/ m' = 2 \/ m' = 4 \/ m' = 8) by (intros m' (Q & _); exact Q).
  unfold MODE_ENCR, MODE_AUTH, MODE_MIXED, MODE_OPEN in S. change (ErrOK =? ErrOK) with true in S.
  destruct (policy 4) as [p4 f4] eqn:P4, (policy 2) as [p2 f2] eqn:P2, (policy 8) as [p8 f8] eqn:P8, (policy 1) as [p1 f1] eqn:P1.
  destruct (Z.testbit av 2) eqn:B2, (Z.testbit av 1) eqn:B1, (Z.testbit av 3) eqn:B3, (Z.testbit av 0) eqn:B0, tw;
  cbn [andb] in S; change (ErrOK =? ErrOK) with true in S; cbn [andb] in S;
  repeat match type of S with
  | (if ?b then _ else _) = _ => destruct b eqn:?
  | (let (_, _) := (if ?b then _ else _) in _) = _ => destruct b eqn:?
  end; try discriminate; inversion S; subst m;
  (split; [first [apply U0|apply U1|apply U2|apply U3]; split; auto; lia|]); (split; [first [now rewrite P4|now rewrite P2|now rewrite P8|now rewrite P1]|]);
  intros m' HU HS; destruct (SG m' HU) as [-> |[-> |[-> | ->]]]; unfold strength in HS; cbn in HS; try lia;
  try (now rewrite P4); try (now rewrite P2); try (now rewrite P8);
  exfalso; first [apply U0 in HU|apply U1 in HU|apply U2 in HU|apply U3 in HU]; destruct HU; intuition congruence.
Qed.

(** a stronger usable mode was refused without an error *)
Lemma select_clean : forall offered req haspf tw policy m, select_mode offered req haspf tw policy = SelMode m ->
  forall m', usable offered req haspf tw m' -> (strength m < strength m')%nat -> policy m' = (false, ErrOK).
Proof.
  intros offered req haspf tw policy m S. unfold select_mode in S.
  set (av := if haspf then _ else _) in S.
  pose proof (usable_bit offered req haspf tw 0 ltac:(lia)) as U0.
  pose proof (usable_bit offered req haspf tw 1 ltac:(lia)) as U1.
  pose proof (usable_bit offered req haspf tw 2 ltac:(lia)) as U2.
  pose proof (usable_bit offered req haspf tw 3 ltac:(lia)) as U3.
  fold av in U0, U1, U2, U3.
  change (2^0) with 1 in U0. change (2^1) with 2 in U1. change (2^2) with 4 in U2. change (2^3) with 8 in U3.
  rewrite (proj1 (land_bit av 2 ltac:(lia)) : (Z.land av MODE_ENCR =? 0) = _) in S.
  rewrite (proj1 (land_bit av 1 ltac:(lia)) : (Z.land av MODE_AUTH =? 0) = _) in S.
  rewrite (proj1 (land_bit av 3 ltac:(lia)) : (Z.land av MODE_MIXED =? 0) = _) in S.
  rewrite (proj1 (land_bit av 0 ltac:(lia)) : (Z.land av MODE_OPEN =? 0) = _) in S.
  rewrite !negb_involutive in S.
  assert (SG: forall m', usable offered req haspf tw m' -> m' = 1 \/ m' = 2 \/ m' = 4 \/ m' = 8) by (intros m' (Q & _); exact Q).
  unfold MODE_ENCR, MODE_AUTH, MODE_MIXED, MODE_OPEN in S. change (ErrOK =? ErrOK) with true in S.
  destruct (policy 4) as [p4 f4] eqn:P4, (policy 2) as [p2 f2] eqn:P2, (policy 8) as [p8 f8] eqn:P8, (policy 1) as [p1 f1] eqn:P1.
  destruct (Z.testbit av 2) eqn:B2, (Z.testbit av 1) eqn:B1, (Z.testbit av 3) eqn:B3, (Z.testbit av 0) eqn:B0, tw;
  cbn [andb] in S; change (ErrOK =? ErrOK) with true in S; cbn [andb] in S;
  repeat match type of S with
  | (if ?b then _ else _) = _ => destruct b eqn:?
  | (let (_, _) := (if ?b then _ else _) in _) = _ => destruct b eqn:?
  end; try discriminate; inversion S; subst m;
  intros m' HU HS; destruct (SG m' HU) as [-> |[-> |[-> | ->]]]; unfold strength in HS; cbn in HS; try lia;
  try (rewrite P4); try (rewrite P2); try (rewrite P8); repeat match goal with
  | H : (_ && _) = true |- _ => apply andb_true_iff in H; destruct H
  | H : (_ && _) = false |- _ => rewrite ?andb_true_r, ?andb_false_r in H
  | H : (_ =? _) = true |- _ => apply Z.eqb_eq in H end; subst; try reflexivity; try congruence;
  exfalso; first [apply U0 in HU|apply U1 in HU|apply U2 in HU|apply U3 in HU]; destruct HU; intuition congruence.
Qed.

(** a usable mode with a policy that answers no only by "no" is always found *)
Lemma select_complete : forall offered req haspf tw policy m, usable offered req haspf tw m -> fst (policy m) = true ->
  (forall m', snd (policy m') = ErrOK) -> exists m', select_mode offered req haspf tw policy = SelMode m'.
Proof.
  intros offered req haspf tw policy m HU PM PE. unfold select_mode.
  set (av := if haspf then _ else _).
  pose proof (usable_bit offered req haspf tw 0 ltac:(lia)) as U0.
  pose proof (usable_bit offered req haspf tw 1 ltac:(lia)) as U1.
  pose proof (usable_bit offered req haspf tw 2 ltac:(lia)) as U2.
  pose proof (usable_bit offered req haspf tw 3 ltac:(lia)) as U3.
  fold av in U0, U1, U2, U3.
  change (2^0) with 1 in U0. change (2^1) with 2 in U1. change (2^2) with 4 in U2. change (2^3) with 8 in U3.
  rewrite (proj1 (land_bit av 2 ltac:(lia)) : (Z.land av MODE_ENCR =? 0) = _).
  rewrite (proj1 (land_bit av 1 ltac:(lia)) : (Z.land av MODE_AUTH =? 0) = _).
  rewrite (proj1 (land_bit av 3 ltac:(lia)) : (Z.land av MODE_MIXED =? 0) = _).
  rewrite (proj1 (land_bit av 0 ltac:(lia)) : (Z.land av MODE_OPEN =? 0) = _).
  rewrite !negb_involutive.
  pose proof (PE 4) as E4. pose proof (PE 2) as E2. pose proof (PE 8) as E8. pose proof (PE 1) as E1.
  unfold MODE_ENCR, MODE_AUTH, MODE_MIXED, MODE_OPEN. change (ErrOK =? ErrOK) with true.
  destruct (policy 4) as [p4 f4] eqn:P4, (policy 2) as [p2 f2] eqn:P2, (policy 8) as [p8 f8] eqn:P8, (policy 1) as [p1 f1] eqn:P1.
  cbn [snd] in *. subst f4 f2 f8 f1.
  destruct (proj1 HU) as [-> |[-> |[-> | ->]]]; rewrite ?P4, ?P2, ?P8, ?P1 in PM; cbn [fst] in PM; subst;
  first [apply U0 in HU|apply U1 in HU|apply U2 in HU|apply U3 in HU]; destruct HU as [HB HT]; rewrite HB;
  try (specialize (HT eq_refl); subst tw); cbn [andb];
  repeat match goal with
  | |- exists _, SelMode _ = _ => eexists; reflexivity
  | |- exists _, (if ?b then _ else _) = _ => destruct b eqn:?
  | |- exists _, (let (_, _) := (if ?b then _ else _) in _) = _ => destruct b eqn:?
  end; try (eexists; reflexivity); try discriminate.
Qed.
