(** What an accepted Stop-Sessions message implies. *)
From Coq Require Import ZArith List Bool Lia ZifyBool ZifyNat Arith Permutation.
From Verif Require Import Base BaseLemmas Puts Time_Model Time_Proofs Sched_Model Wire_Model Wire_Spec Wire_Proofs Control_Model Control_Spec
  Control_Proofs Control_Integrity Stop_Model Stop_Spec Stop_Proofs.
Import ListNotations.
Open Scope Z_scope.
Ltac Zify.zify_post_hook ::= Z.div_mod_to_equations.

Section Sound.
Variable D : list Z -> list Z -> list Z.
Hypothesis BD : blocks16 D.

Definition wf1 (s : ctl) : Prop := length (msg s) = 400%nat /\ length (riv s) = 16%nat.

Lemma recv_wf1 : forall s s1, wf1 s -> recv_blocks D s 0 1 = (IODone, s1) -> wf1 (rhm_add s1 0 1).
Proof using BD.
  intros s s1 (W1 & W2) R.
  assert (G: wf1 s1).
  { unfold recv_blocks in R. destruct (read_raw s 0 (16 * 1)) as [r c1] eqn:RR. destruct r; try discriminate.
    assert (A: length (msg c1) = 400%nat /\ riv c1 = riv s).
    { unfold read_raw in RR. destruct (io s) as [|[|b k] q]; try discriminate RR;
        (destruct (Nat.ltb_spec (length (inp s)) (16 * 1)); [discriminate RR|]); apply (f_equal snd) in RR; cbn [snd] in RR; rewrite <- RR; cproj;
        (rewrite put_length by (rewrite ?firstn_length; cbn [plus]; lia)); auto. }
    destruct A as [A1 A2]. destruct (ciphers c1).
    - destruct (cbc_dec D (key c1) (riv c1) 1 (sub 0 (16 * 1) (msg c1))) as [p iv] eqn:CD.
      assert (X := cbc_dec_len D BD 1 (key c1) (riv c1) (sub 0 (16 * 1) (msg c1))). rewrite CD in X. cbn [fst snd] in X.
      assert (X' : length p = (16 * 1)%nat /\ length iv = 16%nat).
      { apply X; [congruence|]. rewrite sub_length; lia. }
      injection R as <-. unfold wf1. cproj. rewrite put_length by lia. lia.
    - injection R as <-. unfold wf1. rewrite A2. auto. }
  unfold wf1, rhm_add. destruct (ciphers s1); cproj; exact G.
Qed.

(** octets of [k] ranges, each with first number not above last *)
Definition ranges_ok (w : list Z) (k : nat) : Prop :=
  length w = (8 * k)%nat /\ forall j, (j < k)%nat -> field w (8 * j) 4 <= field w (8 * j + 4) 4.

Lemma ranges_cons : forall r w k, length r = 8%nat -> be_dec (sub 0 4 r) <= be_dec (sub 4 4 r) -> ranges_ok w k -> ranges_ok (r ++ w) (S k).
Proof using.
  intros r w k L V (L1 & V1). split; [rewrite app_length; lia|].
  intros j Hj. unfold field, octs_at. rewrite !number_be. destruct j as [|j].
  - change (8 * 0)%nat with 0%nat. cbn [plus]. rewrite !skipn_app, !firstn_app, !skipn_length. rewrite L.
    cbn [Nat.sub firstn]. rewrite !app_nil_r. exact V.
  - specialize (V1 j ltac:(lia)). unfold field, octs_at in V1. rewrite !number_be in V1.
    rewrite !skipn_app, L. rewrite !(skipn_all2 r) by lia. cbn [app].
    replace (8 * S j - 8)%nat with (8 * j)%nat by lia. replace (8 * S j + 4 - 8)%nat with (8 * j + 4)%nat by lia. exact V1.
Qed.

Lemma read_skips_sound : forall n s odd p w s', wf1 s -> read_skips D s n odd p = (true, w, s') -> wf1 s' /\ ranges_ok w n.
Proof using BD.
  induction n as [|n IH]; intros s odd p w s' W R; cbn [read_skips] in R.
  - inversion R; subst. split; auto. split; [reflexivity|intros; lia].
  - destruct odd.
    + destruct (Z.ltb_spec (be_dec (sub 4 4 (sub 8 8 (msg s)))) (be_dec (sub 0 4 (sub 8 8 (msg s))))); [discriminate|].
      destruct (_ && _) in R; [discriminate|]. cbn [negb] in R.
      destruct (read_skips D s n false p) as [[ok w1] c1] eqn:R1. inversion R; subst ok w s'.
      destruct (IH _ _ _ _ _ W R1) as [W1 K1]. split; auto. apply ranges_cons; auto. apply sub_length. destruct W. lia.
    + destruct (recv_blocks D s 0 1) as [r c] eqn:RB. destruct r; try discriminate.
      pose proof (recv_wf1 _ _ W RB) as W2. set (c2 := rhm_add c 0 1) in *.
      destruct (Z.ltb_spec (be_dec (sub 4 4 (sub 0 8 (msg c2)))) (be_dec (sub 0 4 (sub 0 8 (msg c2))))); [discriminate|].
      destruct (_ && _) in R; [discriminate|]. cbn [negb] in R.
      destruct (read_skips D c2 n true p) as [[ok w1] c1] eqn:R1. inversion R; subst ok w s'.
      destruct (IH _ _ _ _ _ W2 R1) as [W1 K1]. split; auto. apply ranges_cons; auto. apply sub_length. destruct W2. lia.
Qed.

Lemma find_receiver_sound : forall sid rv t l bh, find_receiver sid rv = Some (t, l, bh) -> t_sid t = sid /\ Permutation rv (t :: l).
Proof using.
  induction rv as [|x rv IH]; intros t l bh F; cbn [find_receiver] in F; [discriminate|].
  destruct (eqb_octets sid (t_sid x)) eqn:Q.
  - apply eqb_octets_spec in Q. inversion F; subst. auto.
  - destruct (find_receiver sid rv) as [[[t1 l1] b1]|]; [|discriminate]. inversion F; subst.
    destruct (IH _ _ _ eq_refl) as [A B]. split; auto. rewrite B. apply perm_swap.
Qed.

Variable clean : list Z -> Z -> bool.
Variable save : list Z -> bool.

(** a file that has been completed *)
Definition completed (f : stored) : Prop :=
  exists d, s_done f = Some d /\ ranges_ok (s_skips f) (Z.to_nat d) /\ clean (s_sid f) (s_next f) = true /\ save (s_sid f) = true.

Lemma sessions_sound : forall n s tests recv bh tests' recv' bh' fs s', wf1 s ->
  read_stop_sessions D clean save s n tests recv bh = (true, tests', recv', bh', fs, s') ->
  length fs = n /\ Permutation (map t_sid recv) (map s_sid fs ++ map t_sid recv') /\
  Permutation (tests ++ recv) (tests' ++ recv') /\ Forall completed fs.
Proof using BD.
  induction n as [|n IH]; intros s tests recv bh tests' recv' bh' fs s' W R; cbn [read_stop_sessions] in R.
  - inversion R; subst. split; [reflexivity|]. split; [cbn; auto|]. split; auto.
  - destruct (recv_blocks D s 0 1) as [r c] eqn:RB. destruct r; try discriminate.
    pose proof (recv_wf1 _ _ W RB) as W2. set (c2 := rhm_add c 0 1) in *.
    destruct (find_receiver (sub 0 16 (msg c2)) recv) as [[[t recv1] bh1]|] eqn:F; [|discriminate].
    apply find_receiver_sound in F. destruct F as [F1 F2].
    destruct (recv_blocks D c2 0 1) as [r c3] eqn:RB2. destruct r; try discriminate.
    pose proof (recv_wf1 _ _ W2 RB2) as W3. set (c4 := rhm_add c3 0 1) in *.
    set (next := be_dec (sub 0 4 (msg c4))) in *. set (k := be_dec (sub 4 4 (msg c4))) in *.
    destruct (clean (t_sid t) next) eqn:Cl; cbn [negb] in R; [|discriminate].
    destruct (read_skips D c4 (Z.to_nat k) true 0) as [[ok w] c5] eqn:RS. destruct ok; cbn [negb] in R; [|discriminate].
    destruct (read_skips_sound _ _ _ _ _ _ W3 RS) as [W5 K5].
    destruct ((k mod 2 =? 0) && negb (eqb_octets (sub 8 8 (msg c5)) (zeros 8))) eqn:Z8; [discriminate|].
    destruct (save (t_sid t)) eqn:Sv; cbn [negb] in R; [|discriminate].
    destruct (read_stop_sessions D clean save c5 n (t :: tests) recv1 bh1) as [[[[[b ts1] rv1] bh2] fs1] c6] eqn:R6.
    inversion R; subst b ts1 rv1 bh2 fs s'.
    destruct (IH _ _ _ _ _ _ _ _ _ W5 R6) as (I1 & I2 & I3 & I4).
    split; [cbn; lia|].
    split. { cbn [map s_sid app]. rewrite (Permutation_map t_sid F2). cbn [map]. constructor. exact I2. }
    split. { rewrite F2, <- Permutation_middle. rewrite <- I3. reflexivity. }
    constructor; auto. exists k. auto.
Qed.

Variable H : list Z -> list Z -> list Z.

Lemma stop_sound : forall s tests a tests' fs s', wf1 s -> twoway s = false ->
  read_stop D H clean save s tests = (ErrOK, a, tests', fs, s') ->
  exists left, all_open tests /\ accept_code a /\
    Permutation (map t_sid (receivers tests)) (map s_sid fs ++ map t_sid left) /\
    Permutation tests (tests' ++ left) /\ Forall completed fs /\
    length fs = Z.to_nat (be_dec (sub 4 4 (msg s))).
Proof using BD.
  intros s tests a tests' fs s' W Tw R. unfold read_stop in R.
  destruct (is_st StRequest s && is_st StTest s); cbn [negb] in R; [|discriminate].
  destruct (Z.eqb_spec (get_accept (byte 1 (msg s))) CNTRL_INVALID) as [|NI]; [discriminate|].
  assert (Tw1: twoway (rhm_add s 0 1) = false) by (unfold rhm_add; destruct (ciphers s); exact Tw).
  assert (W1: wf1 (rhm_add s 0 1)) by (unfold wf1, rhm_add; destruct (ciphers s); exact W).
  rewrite Tw1 in R.
  assert (Op: all_open tests \/ ~ all_open tests).
  { clear. induction tests as [|t l [IH|IH]].
    - left. constructor.
    - destruct (t_end t) eqn:Et; [left; constructor; [congruence|exact IH]|right; intro X; inversion X; subst; congruence].
    - right. intro X. inversion X; subst. auto. }
  destruct Op as [Op|Op].
  2:{ assert (N: forall rv, fst (pull_receivers tests rv) = None).
      { clear R. induction tests as [|t l IH]; intros rv; [destruct Op; constructor|]. cbn [pull_receivers].
        destruct (t_end t) as [e|] eqn:Et; [|reflexivity].
        assert (Op': ~ all_open l) by (intro X; apply Op; constructor; [congruence|exact X]). specialize (IH Op').
        destruct (e_send e); [|apply IH]. specialize (IH rv). destruct (pull_receivers l rv) as [k r]. cbn [fst] in IH. subst k. reflexivity. }
      specialize (N []). destruct (pull_receivers tests []) as [k r]. cbn [fst] in N. subst k. discriminate. }
  rewrite pull_spec, app_nil_r in R by auto.
  destruct (read_stop_sessions D clean save (rhm_add s 0 1) _ (senders tests) (rev (receivers tests)) [])
    as [[[[[ok ts1] rv1] bh1] fs1] c1] eqn:RS.
  destruct ok; cbn [negb] in R; [|discriminate].
  destruct (sessions_sound _ _ _ _ _ _ _ _ _ _ W1 RS) as (I1 & I2 & I3 & I4).
  destruct bh1; [|discriminate].
  destruct (recv_blocks D c1 0 1) as [r c2]. destruct r; try discriminate.
  destruct (rhm_check H c2 0) as [ok c3]. destruct ok; [|discriminate].
  cbn [Z.eqb Pos.eqb] in R. change (ErrOK =? ErrOK) with true in R. cbv iota in R.
  apply (f_equal (fun x => (snd (fst (fst (fst x))), snd (fst (fst x)), snd (fst x)))) in R. cbn [fst snd] in R.
  injection R as <- <- <-.
  exists rv1. split; auto. split.
  { destruct (get_accept_code (byte 1 (msg s))) as [Q|Q]; [congruence|exact Q]. }
  split. { rewrite <- I2. apply Permutation_map. apply Permutation_rev. }
  split. { rewrite <- I3. rewrite (split_open tests Op) at 1. apply Permutation_app_head. apply Permutation_rev. }
  auto.
Qed.
End Sound.
