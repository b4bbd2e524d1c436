(** Proofs about encrypted streams (C17) and message codes (C18). *)
From Coq Require Import ZArith List Bool Lia ZifyBool ZifyNat.
From Verif Require Import Base BaseLemmas Sched_Model Wire_Model Wire_Spec Wire_Proofs Puts Control_Model Control_Spec Control_Proofs Stop_Model.
Import ListNotations.
Open Scope Z_scope.
Ltac Zify.zify_post_hook ::= Z.div_mod_to_equations.

Lemma skipn_skipn : forall (A : Type) n m (l : list A), skipn n (skipn m l) = skipn (m + n) l.
Proof. induction m as [|m IH]; intros l; [reflexivity|]. destruct l; cbn [skipn plus]; [now rewrite skipn_nil|apply IH]. Qed.

Section I.
Variable E D : list Z -> list Z -> list Z.

(** ** C17 *)

Lemma cbc_chained : forall nb k iv p, length p = (16 * nb)%nat ->
  exists ps cs, p = concat ps /\ fst (cbc_enc E k iv nb p) = concat cs /\ Forall (fun b => length b = 16%nat) ps /\ chained E k iv ps cs.
Proof.
  induction nb as [|nb IH]; intros k iv p L.
  - exists [], []. destruct p; [|discriminate]. repeat split; constructor.
  - cbn [cbc_enc]. set (c := E k (xor_octets (firstn 16 p) iv)).
    destruct (IH k c (skipn 16 p)) as (ps & cs & A & B & C & F). { rewrite skipn_length. lia. }
    exists (firstn 16 p :: ps), (c :: cs). destruct (cbc_enc E k c nb (skipn 16 p)) as [r iv']. cbn [fst concat] in *. subst r. rewrite <- A.
    repeat match goal with |- _ /\ _ => split end; auto.
    + now rewrite firstn_skipn.
    + constructor; auto. rewrite firstn_length. lia.
    + constructor; auto.
Qed.

Hypothesis BC : block_cipher E D.

Definition total (l : list nat) : nat := fold_right Nat.add 0%nat l.

Lemma send_all_wire : forall ps c c', wf c ->
  Forall (fun p => (length p <= 400)%nat /\ exists n, length p = (16 * n)%nat) ps -> send_all E c ps = Some c' ->
  outp c' = outp c ++ fst (wire E (ciphers c) (key c) (wiv c) (concat ps)) /\
  wiv c' = snd (wire E (ciphers c) (key c) (wiv c) (concat ps)) /\ same c c' /\ shm c' = shm c /\ wf c'.
Proof using BC.
  induction ps as [|p ps IH]; intros c c' W F S; cbn [send_all] in S.
  - inversion S; subst. cbn [concat]. unfold wire. destruct (ciphers c'); cbn; rewrite app_nil_r; repeat split; auto; apply W.
  - inversion F as [|? ? [F1 [n F2]] F3]; subst. rewrite F2, div16 in S.
    destruct (send_blocks E (set_msg c (put 0 p (msg c))) 0 n) as [r c1] eqn:X. destruct r; try discriminate.
    destruct W as (W1 & W2 & W3).
    assert (LP: length (put 0 p (msg c)) = 400%nat) by (rewrite put_length; lia).
    apply send_ok in X. 2:{ cproj. lia. }
    assert (SP: sub 0 (16 * n) (put 0 p (msg c)) = p).
    { apply sub_put_same; lia. }
    unfold after_send in X. cproj. change (ciphers (set_msg c (put 0 p (msg c)))) with (ciphers c) in X.
    cbn [msg set_msg key wiv outp io] in X. rewrite SP in X.
    destruct (wire_len E D BC (ciphers c) n (key c) (wiv c) p F2 W3) as [L1 L2].
    assert (Wc: wf c1).
    { subst c1. unfold wf. cproj. rewrite put_length by lia. auto. }
    destruct (IH c1 c' Wc F3 S) as (A1 & A2 & A3 & A4 & A5).
    assert (Q: length (concat ps) = (16 * total (map (fun p => length p / 16)%nat ps))%nat).
    { clear -F3. induction ps as [|q ps IH]; [reflexivity|]. inversion F3 as [|? ? [F1 [m F2]] F4]; subst. cbn [concat map total fold_right].
      rewrite app_length, IH by auto. rewrite F2, div16. unfold total. lia. }
    assert (SC: same c c1) by (subst c1; unfold same; cproj; repeat split; reflexivity).
    assert (CC: ciphers c1 = ciphers c) by (subst c1; reflexivity).
    assert (KC: key c1 = key c) by (subst c1; reflexivity).
    assert (WC: wiv c1 = snd (wire E (ciphers c) (key c) (wiv c) p)) by (subst c1; reflexivity).
    assert (OC: outp c1 = outp c ++ fst (wire E (ciphers c) (key c) (wiv c) p)) by (subst c1; reflexivity).
    cbn [concat]. rewrite (wire_app E (ciphers c) n _ _ _ p (concat ps) F2 Q). cbn [fst snd].
    rewrite CC, KC, WC, OC in *. rewrite A1, A2. repeat split; try apply A5.
    + now rewrite app_assoc.
    + clear -SC A3. unfold same in *. intuition congruence.
    + clear -SC A3. unfold same in *. intuition congruence.
    + clear -SC A3. unfold same in *. intuition congruence.
    + clear -SC A3. unfold same in *. intuition congruence.
    + clear -SC A3. unfold same in *. intuition congruence.
    + clear -SC A3. unfold same in *. intuition congruence.
    + clear -SC A3. unfold same in *. intuition congruence.
    + rewrite A4. subst c1. reflexivity.
Qed.

Lemma recv_all_wire : forall ns s P rest, wf s -> quiet s -> Forall (fun n => (n <= 25)%nat) ns -> length P = (16 * total ns)%nat ->
  inp s = fst (wire E (ciphers s) (key s) (riv s) P) ++ rest ->
  exists s', recv_all D s ns = Some (P, s') /\ inp s' = rest /\ riv s' = snd (wire E (ciphers s) (key s) (riv s) P) /\
    same s s' /\ rhm s' = rhm s /\ wf s' /\ quiet s'.
Proof using BC.
  induction ns as [|n ns IH]; intros s P rest W Q F L I.
  - cbn in L. destruct P; [|discriminate]. exists s. unfold wire in *. cbn [recv_all]. 
    destruct (ciphers s); cbn in *; repeat match goal with |- _ /\ _ => split end; auto; unfold same; tauto.
  - inversion F as [|? ? F1 F2]; subst. cbn [total fold_right] in L. fold (total ns) in L.
    set (P1 := firstn (16 * n) P). set (P2 := skipn (16 * n) P).
    assert (L1: length P1 = (16 * n)%nat) by (unfold P1; rewrite firstn_length; lia).
    assert (L2: length P2 = (16 * total ns)%nat) by (unfold P2; rewrite skipn_length; lia).
    assert (PP: P = P1 ++ P2) by (symmetry; apply firstn_skipn).
    rewrite PP in I. rewrite (wire_app E _ n (total ns)) in I by auto. cbn [fst] in I. rewrite <- app_assoc in I.
    destruct (recv0 E D BC s n P1 _ W Q L1 ltac:(lia) I) as (s1 & R & G & RH).
    pose proof (wf_got E D BC _ _ _ _ _ W G L1) as W1.
    destruct G as (G1 & G2 & G3 & G4 & G5 & G6 & G7 & G8 & G9).
    cbn [recv_all]. rewrite R.
    assert (I1: inp s1 = fst (wire E (ciphers s1) (key s1) (riv s1) P2) ++ rest).
    { rewrite G2, G3, (ciphers_same _ _ G1). destruct G1 as (_ & _ & -> & _). reflexivity. }
    destruct (IH s1 P2 rest W1 G7 F2 L2 I1) as (s2 & A1 & A2 & A3 & A4 & A5 & A6 & A7).
    exists s2. rewrite A1.
    assert (SB: octs_at (msg s1) 0 (16 * n) = P1).
    { rewrite <- L1. exact G9. }
    rewrite SB, <- PP. split; [reflexivity|]. split; [auto|].
    rewrite PP at 1. rewrite (wire_app E _ n (total ns)) by auto. cbn [snd].
    repeat match goal with |- _ /\ _ => split end; auto.
    + rewrite A3, G3, (ciphers_same _ _ G1). destruct G1 as (_ & _ & -> & _). reflexivity.
    + clear -G1 A4. unfold same in *. intuition congruence.
    + congruence.
Qed.

Lemma stream_roundtrip : forall ps ns c c' s o rest, wf c -> wf s -> quiet s -> linked c s ->
  Forall (fun p => (length p <= 400)%nat /\ exists n, length p = (16 * n)%nat) ps -> Forall (fun n => (n <= 25)%nat) ns ->
  length (concat ps) = (16 * total ns)%nat ->
  send_all E c ps = Some c' -> sent c c' o -> inp s = o ++ rest ->
  exists s', recv_all D s ns = Some (concat ps, s') /\ agree c' s' rest.
Proof using BC.
  intros ps ns c c' s o rest W Ws Q (K1 & K2 & K3 & K4 & K5 & K6) Fp Fn L S So I.
  destruct (send_all_wire ps c c' W Fp S) as (A1 & A2 & A3 & A4 & A5).
  unfold sent in So. rewrite A1 in So. apply app_inv_head in So. subst o.
  assert (C: ciphers s = ciphers c) by (unfold ciphers; now rewrite K1).
  rewrite <- C, K3, K5 in I.
  destruct (recv_all_wire ns s (concat ps) rest Ws Q Fn L I) as (s' & B1 & B2 & B3 & B4 & B5 & B6 & B7).
  exists s'. split; [exact B1|]. unfold agree, linked.
  assert (wiv c' = riv s') by (rewrite A2, B3, C, K3, K5; reflexivity).
  unfold same in *. intuition congruence.
Qed.

Lemma stream_chained : forall ps c c' o, wf c -> ciphers c = true ->
  Forall (fun p => (length p <= 400)%nat /\ exists n, length p = (16 * n)%nat) ps ->
  send_all E c ps = Some c' -> sent c c' o ->
  exists bs cs, concat ps = concat bs /\ o = concat cs /\ Forall (fun b => length b = 16%nat) bs /\ chained E (key c) (wiv c) bs cs.
Proof using BC.
  intros ps c c' o W C Fp S So.
  destruct (send_all_wire ps c c' W Fp S) as (A1 & _).
  unfold sent in So. rewrite A1 in So. apply app_inv_head in So. subst o. unfold wire. rewrite C.
  assert (exists n, length (concat ps) = (16 * n)%nat) as [n L].
  { clear -Fp. induction Fp as [|p ps [_ [n Hn]] _ [m Hm]]; [exists 0%nat; reflexivity|]. exists (n + m)%nat. cbn [concat]. rewrite app_length. lia. }
  rewrite L, div16. destruct (cbc_chained n (key c) (wiv c) (concat ps) L) as (bs & cs & X1 & X2 & X3 & X4).
  exists bs, cs. auto.
Qed.
End I.

(** ** C18 *)

Section J.
Variable D : list Z -> list Z -> list Z.
Lemma cbc_dec_app : forall n m k iv l, (16 * (n + m) <= length l)%nat ->
  cbc_dec D k iv (n + m) l =
  (fst (cbc_dec D k iv n (firstn (16 * n) l)) ++ fst (cbc_dec D k (snd (cbc_dec D k iv n (firstn (16 * n) l))) m (skipn (16 * n) l)),
   snd (cbc_dec D k (snd (cbc_dec D k iv n (firstn (16 * n) l))) m (skipn (16 * n) l))).
Proof.
  induction n as [|n IH]; intros m k iv l L.
  - rewrite Nat.mul_0_r. cbn [cbc_dec fst snd plus skipn app]. now destruct (cbc_dec D k iv m l).
  - cbn [plus cbc_dec].
    assert (F1: firstn 16 (firstn (16 * S n) l) = firstn 16 l) by (rewrite firstn_firstn; f_equal; lia).
    assert (F2: skipn 16 (firstn (16 * S n) l) = firstn (16 * n) (skipn 16 l)).
    { rewrite skipn_firstn_comm. f_equal. lia. }
    rewrite F1, F2.
    rewrite (IH m k (firstn 16 l) (skipn 16 l)) by (rewrite skipn_length; lia).
    assert (F3: skipn (16 * n) (skipn 16 l) = skipn (16 * S n) l) by (rewrite skipn_skipn; f_equal; lia).
    rewrite F3.
    destruct (cbc_dec D k (firstn 16 l) n (firstn (16 * n) (skipn 16 l))) as [p1 iv1]. cbn [fst snd].
    destruct (cbc_dec D k iv1 m (skipn (16 * S n) l)) as [p2 iv2]. cbn [fst snd]. now rewrite app_assoc.
Qed.

Lemma cbc_dec_firstn : forall n k iv l, cbc_dec D k iv n (firstn (16 * n) l) = cbc_dec D k iv n l.
Proof.
  induction n as [|n IH]; intros k iv l; [reflexivity|]. cbn [cbc_dec].
  assert (F1: firstn 16 (firstn (16 * S n) l) = firstn 16 l) by (rewrite firstn_firstn; f_equal; lia).
  assert (F2: skipn 16 (firstn (16 * S n) l) = firstn (16 * n) (skipn 16 l)) by (rewrite skipn_firstn_comm; f_equal; lia).
  now rewrite F1, F2, IH.
Qed.

Hypothesis BD : blocks16 D.

Lemma cbc_dec_len : forall nb k iv l, length iv = 16%nat -> (16 * nb <= length l)%nat ->
  length (fst (cbc_dec D k iv nb l)) = (16 * nb)%nat /\ length (snd (cbc_dec D k iv nb l)) = 16%nat.
Proof.
  induction nb as [|nb IH]; intros k iv l I L; [cbn; auto|]. cbn [cbc_dec].
  assert (F: length (firstn 16 l) = 16%nat) by (rewrite firstn_length; lia).
  specialize (IH k (firstn 16 l) (skipn 16 l) F). rewrite skipn_length in IH. specialize (IH ltac:(lia)).
  destruct (cbc_dec D k (firstn 16 l) nb (skipn 16 l)) as [r iv']. cbn [fst snd] in *.
  rewrite app_length, (xor_len _ _ 16) by (auto; apply BD; auto). lia.
Qed.

(** [n] blocks have been taken from the input of [s0] *)
Definition took (s0 s : ctl) (n : nat) : Prop :=
  (16 * n <= length (inp s0))%nat /\ inp s = skipn (16 * n) (inp s0) /\
  riv s = snd (cbc_dec D (key s0) (riv s0) n (firstn (16 * n) (inp s0))) /\
  mode s = mode s0 /\ twoway s = twoway s0 /\ key s = key s0 /\ hkey s = hkey s0 /\ wf s /\ (quiet s0 -> quiet s).

Lemma took_st : forall s0 s n x, took s0 s n -> took s0 (set_st s x) n.
Proof. intros s0 s n x T. exact T. Qed.

Lemma took_rhm : forall s0 s n off nb, took s0 s n -> took s0 (rhm_add s off nb) n.
Proof. intros s0 s n off nb T. unfold rhm_add. destruct (ciphers s); exact T. Qed.

Lemma took_refl : forall s, wf s -> took s s 0.
Proof. intros s W. unfold took. rewrite Nat.mul_0_r. cbn. repeat split; auto; try apply W. lia. Qed.

Lemma incoming_len : forall s0 s n, wf s0 -> took s0 s n -> length (incoming D s0 n) = (16 * n)%nat.
Proof. intros s0 s n (_ & W & _) (T & _). unfold incoming. apply cbc_dec_len; auto. rewrite firstn_length. lia. Qed.

Lemma recv_took : forall s0 s n off nb s1, wf s0 -> took s0 s n -> ciphers s0 = true -> (off + 16 * nb <= 400)%nat ->
  recv_blocks D s off nb = (IODone, s1) ->
  took s0 s1 (n + nb) /\ incoming D s0 (n + nb) = incoming D s0 n ++ sub off (16 * nb) (msg s1) /\
  sub 0 off (msg s1) = sub 0 off (msg s) /\ rhm s1 = rhm s /\ st s1 = st s /\ shm s1 = shm s.
Proof.
  intros s0 s n off nb s1 W0 T C O R. destruct T as (T1 & T2 & T3 & T4 & T5 & T6 & T7 & (W1 & W2 & W3) & T8).
  assert (CS: ciphers s = true) by (unfold ciphers in *; now rewrite T4).
  unfold recv_blocks in R.
  assert (RR: exists sr, read_raw s off (16 * nb) = (IODone, sr) /\ (16 * nb <= length (inp s))%nat /\
     sr = set_msg (set_inp s (skipn (16 * nb) (inp s)) (tl (io s))) (put off (firstn (16 * nb) (inp s)) (msg s)) /\ (quiet s -> quiet sr)).
  { unfold read_raw in *. destruct (io s) as [|[|i k] r] eqn:IO.
    - destruct (length (inp s) <? 16 * nb)%nat eqn:LL; [discriminate|]. eexists; split; [reflexivity|].
      split; [apply Nat.ltb_ge in LL; exact LL|split; [reflexivity|]]. unfold quiet; cbn; constructor.
    - destruct (length (inp s) <? 16 * nb)%nat eqn:LL; [discriminate|]. eexists; split; [reflexivity|].
      split; [apply Nat.ltb_ge in LL; exact LL|split; [reflexivity|]]. unfold quiet. rewrite IO. cbn. intros X; now inversion X.
    - discriminate. }
  destruct RR as (sr & RR & L & -> & Qr). rewrite RR in R.
  change (ciphers (set_msg (set_inp s (skipn (16 * nb) (inp s)) (tl (io s))) (put off (firstn (16 * nb) (inp s)) (msg s)))) with (ciphers s) in R.
  rewrite CS in R. cbn [msg set_msg key riv set_inp] in R.
  assert (LF: length (firstn (16 * nb) (inp s)) = (16 * nb)%nat) by (rewrite firstn_length; lia).
  rewrite sub_put_same in R by lia.
  destruct (cbc_dec_len nb (key s) (riv s) (firstn (16 * nb) (inp s)) W2 ltac:(lia)) as [LD1 LD2].
  assert (L0: (16 * (n + nb) <= length (inp s0))%nat) by (rewrite T2, skipn_length in L; lia).
  pose proof (cbc_dec_app n nb (key s0) (riv s0) (firstn (16 * (n + nb)) (inp s0))) as AP.
  rewrite firstn_length in AP. specialize (AP ltac:(lia)).
  rewrite firstn_firstn, skipn_firstn_comm in AP. replace (Nat.min (16 * n) (16 * (n + nb))) with (16 * n)%nat in AP by lia.
  replace (16 * (n + nb) - 16 * n)%nat with (16 * nb)%nat in AP by lia.
  rewrite <- T3, <- T2 in AP. rewrite T6 in R, LD1, LD2.
  destruct (cbc_dec D (key s0) (riv s) nb (firstn (16 * nb) (inp s))) as [p iv] eqn:DD. cbn [fst snd] in *.
  match type of R with (_, ?x) = (_, s1) => assert (E1 : s1 = x) by congruence end. subst s1. clear R.
  unfold took, incoming, wf, quiet. rewrite AP. cproj. cbn [fst snd].
  rewrite put_put by (rewrite ?LF; lia). rewrite put_length by lia. rewrite sub_put_same by lia.
  repeat match goal with |- _ /\ _ => split end; auto.
  - rewrite T2, skipn_skipn. f_equal. lia.
  - intros q. apply Qr, T8, q.
  - unfold sub. cbn [skipn]. unfold put. rewrite firstn_app, firstn_firstn, firstn_length.
    replace (Nat.min off off) with off by lia. replace (off - Nat.min off (length (msg s)))%nat with 0%nat by lia. cbn [firstn]. apply app_nil_r.
Qed.

Variable H : list Z -> list Z -> list Z.

Lemma octs_tail : forall (a m : list Z) n k, length a = (16 * n)%nat -> (16 * k + 16 <= length m)%nat ->
  octs_at (a ++ sub 0 (16 * k + 16) m) (16 * (n + k)) 16 = sub (16 * k) 16 m.
Proof.
  intros a m n k L M. unfold octs_at, sub. cbn [skipn].
  rewrite skipn_app, skipn_all2 by lia. cbn [app]. rewrite skipn_firstn_comm, firstn_firstn. f_equal; [lia|]. f_equal. lia.
Qed.

Lemma octs_head : forall (a m : list Z) n k, length a = (16 * n)%nat -> (16 * k + 16 <= length m)%nat ->
  octs_at (a ++ sub 0 (16 * k + 16) m) 0 (16 * (n + k)) = a ++ sub 0 (16 * k) m.
Proof.
  intros a m n k L M. unfold octs_at, sub. cbn [skipn].
  rewrite firstn_app, firstn_all2 by lia. f_equal. rewrite firstn_firstn. f_equal. lia.
Qed.

(** a message of [k] blocks followed by its code, all in the buffer *)
Lemma check_coded : forall s0 s n off k, wf s0 -> ciphers s0 = true -> took s0 s (n + k + 1) -> (16 * k + 16 <= 400)%nat -> off = (16 * k)%nat ->
  rhm s = rhm s0 ++ incoming D s0 n -> incoming D s0 (n + k + 1) = incoming D s0 n ++ sub 0 (16 * k + 16) (msg s) ->
  fst (rhm_check H (rhm_add s 0 k) off) = true <-> coded H (hkey s0) (rhm s0) (incoming D s0 (n + k + 1)) (16 * (n + k)).
Proof.
  intros s0 s n off k W C T K -> R I.
  pose proof (incoming_len _ _ _ W T) as LI.
  destruct T as (T1 & T2 & T3 & T4 & T5 & T6 & T7 & (W1 & W2 & W3) & T8).
  assert (CS: ciphers s = true) by (unfold ciphers in *; now rewrite T4).
  assert (LS: length (sub 0 (16 * k + 16) (msg s)) = (16 * k + 16)%nat) by (apply sub_length; lia).
  assert (LN: length (incoming D s0 n) = (16 * n)%nat).
  { rewrite I, app_length, LS in LI. lia. }
  unfold rhm_check, rhm_add. rewrite CS. change (ciphers (set_rhm s (rhm s ++ sub 0 (16 * k) (msg s)))) with (ciphers s). rewrite CS.
  cbn [fst msg set_rhm rhm hkey]. unfold coded. rewrite eqb_octets_spec.
  rewrite R, I, T7. 
  rewrite octs_tail, octs_head by (auto; lia). rewrite app_assoc. reflexivity.
Qed.

Lemma recv_quiet : forall s off nb, quiet s -> (16 * nb <= length (inp s))%nat -> exists s1, recv_blocks D s off nb = (IODone, s1).
Proof.
  intros s off nb Q L. unfold recv_blocks.
  assert (X: exists sr, read_raw s off (16 * nb) = (IODone, sr)).
  { unfold read_raw. assert (N: (length (inp s) <? 16 * nb)%nat = false) by (apply Nat.ltb_ge; exact L). rewrite N.
    destruct (io s) as [|[|] r] eqn:I; try (eexists; reflexivity). unfold quiet in Q. rewrite I in Q. inversion Q; discriminate. }
  destruct X as [sr X]. rewrite X. destruct (ciphers sr); [|eexists; reflexivity].
  destruct (cbc_dec D (key sr) (riv sr) nb (sub off (16 * nb) (msg sr))) as [p iv]. eexists; reflexivity.
Qed.

Lemma check_msg : forall s off b s', rhm_check H s off = (b, s') -> msg s' = msg s /\ st s' = st s /\ inp s' = inp s /\ (quiet s -> quiet s').
Proof. intros s off b s' R. unfold rhm_check in R. destruct (ciphers s); inversion R; subst; auto. Qed.

Lemma rhm_msg : forall s off nb, msg (rhm_add s off nb) = msg s /\ st (rhm_add s off nb) = st s /\ inp (rhm_add s off nb) = inp s.
Proof. intros. unfold rhm_add. destruct (ciphers s); auto. Qed.

Lemma incoming_0 : forall s, incoming D s 0 = [].
Proof. reflexivity. Qed.

Lemma recv_check : forall s k s1, wf s -> ciphers s = true -> (16 * k + 16 <= 400)%nat -> recv_blocks D s 0 (k + 1) = (IODone, s1) ->
  (fst (rhm_check H (rhm_add s1 0 k) (16 * k)) = true <-> coded H (hkey s) (rhm s) (incoming D s (k + 1)) (16 * k)) /\
  sub 0 (16 * k + 16) (msg s1) = incoming D s (k + 1) /\ (16 * k + 16 <= length (inp s))%nat /\ took s s1 (k + 1).
Proof.
  intros s k s1 W C K R.
  destruct (recv_took s s 0 0 (k + 1) s1 W (took_refl s W) C ltac:(lia) R) as (T & I & _ & RH & _).
  replace (16 * (k + 1))%nat with (16 * k + 16)%nat in I by lia. rewrite incoming_0 in I. cbn [plus app] in I.
  split; [|split; [auto|split; [destruct T as [T _]; lia|exact T]]].
  apply (check_coded s s1 0 (16 * k) k W C T K eq_refl); [rewrite RH, incoming_0, app_nil_r; auto|rewrite incoming_0; exact I].
Qed.

(** request readers: the first block has been read by OWPReadRequestType *)
Lemma request_first : forall s t s1, wf s -> ciphers s = true -> read_request_type D s = (t, s1) -> 1 <= t <= 5 ->
  took s s1 1 /\ sub 0 16 (msg s1) = incoming D s 1 /\ rhm s1 = rhm s /\ byte 0 (msg s1) = t.
Proof.
  intros s t s1 W C R T. unfold read_request_type in R.
  destruct (negb (is_st StRequest s) || is_st StReading s). { inversion R; subst; unfold ReqInvalid in T; lia. }
  destruct (recv_blocks D s 0 1) as [r c] eqn:RB.
  destruct r as [| |[]]; try (inversion R; subst; unfold ReqSockIntr, ReqSockClose in T; lia).
  destruct (recv_took s s 0 0 1 c W (took_refl s W) C ltac:(lia) RB) as (A1 & A2 & _ & A3 & _). cbn [plus app] in *. rewrite incoming_0 in A2. cbn [app] in A2.
  change (16 * 1)%nat with 16%nat in A2.
  set (b := byte 0 (msg c)) in *.
  destruct ((is_st StTest c && negb (b =? 3)) || (negb (is_st StTest c) && (b =? 3))). { inversion R; subst; unfold ReqInvalid in T; lia. }
  assert (X: forall y, (t, s1) = (b, set_st c y) -> took s s1 1 /\ sub 0 16 (msg s1) = incoming D s 1 /\ rhm s1 = rhm s /\ byte 0 (msg s1) = t).
  { intros y Y. inversion Y; subst. split; [exact A1|]. split; [symmetry; exact A2|]. split; [exact A3|reflexivity]. }
  destruct (b =? 1). { eapply X. symmetry. exact R. }
  destruct (b =? 2). { eapply X. symmetry. exact R. }
  destruct (b =? 3). { eapply X. symmetry. exact R. }
  destruct (b =? 4). { eapply X. symmetry. exact R. }
  destruct (b =? 5). { eapply X. symmetry. exact R. }
  inversion R; subst; unfold ReqInvalid in T; lia.
Qed.

Lemma or_is : forall c b, 0 < b -> is_st b (or_st c b) = true.
Proof.
  intros c b L. unfold is_st, or_st. cproj. apply negb_true_iff, Z.eqb_neq. intros X.
  assert (Y: Z.testbit (Z.land b (Z.lor (st c) b)) (Z.log2 b) = Z.testbit b (Z.log2 b)).
  { rewrite Z.land_spec, Z.lor_spec. destruct (Z.testbit b (Z.log2 b)); [now rewrite orb_true_r|reflexivity]. }
  rewrite X, Z.bit_log2, Z.bits_0 in Y by auto. discriminate.
Qed.

Lemma request_bit : forall s t s1, read_request_type D s = (t, s1) -> 1 <= t <= 5 ->
  is_st (nth (Z.to_nat t) [0; StTestRequest; StStartSessions; StStopSessions; StFetchSession; StTestRequestTW] 0) s1 = true.
Proof.
  intros s t s1 R T. unfold read_request_type in R.
  destruct (negb (is_st StRequest s) || is_st StReading s). { inversion R; subst; unfold ReqInvalid in T; lia. }
  destruct (recv_blocks D s 0 1) as [r c] eqn:RB.
  destruct r as [| |[]]; try (inversion R; subst; unfold ReqSockIntr, ReqSockClose in T; lia).
  set (b := byte 0 (msg c)) in *. clearbody b.
  destruct ((is_st StTest c && negb (b =? 3)) || (negb (is_st StTest c) && (b =? 3))). { inversion R; subst; unfold ReqInvalid in T; lia. }
  destruct (b =? 1) eqn:B1. { inversion R. replace t with 1 by lia. apply or_is; reflexivity. }
  destruct (b =? 2) eqn:B2. { inversion R. replace t with 2 by lia. apply or_is; reflexivity. }
  destruct (b =? 3) eqn:B3. { inversion R. replace t with 3 by lia. apply or_is; reflexivity. }
  destruct (b =? 4) eqn:B4. { inversion R. replace t with 4 by lia. apply or_is; reflexivity. }
  destruct (b =? 5) eqn:B5. { inversion R. replace t with 5 by lia. apply or_is; reflexivity. }
  inversion R; subst; unfold ReqInvalid in T; lia.
Qed.

Lemma request_rest : forall s0 s1 k s2, wf s0 -> ciphers s0 = true -> took s0 s1 1 -> sub 0 16 (msg s1) = incoming D s0 1 -> rhm s1 = rhm s0 ->
  (1 <= k)%nat -> (16 * k + 16 <= 400)%nat -> recv_blocks D s1 16 k = (IODone, s2) ->
  (fst (rhm_check H (rhm_add s2 0 k) (16 * k)) = true <-> coded H (hkey s0) (rhm s0) (incoming D s0 (k + 1)) (16 * k)) /\
  sub 0 (16 * k + 16) (msg s2) = incoming D s0 (k + 1) /\ took s0 s2 (k + 1).
Proof.
  intros s0 s1 k s2 W C T1 M R1 K1 K R.
  destruct (recv_took s0 s1 1 16 k s2 W T1 C ltac:(lia) R) as (T & I & F & RH & _).
  assert (S: sub 0 (16 * k + 16) (msg s2) = incoming D s0 (k + 1)).
  { replace (k + 1)%nat with (1 + k)%nat by lia. rewrite I, <- M, <- F. replace (16 * k + 16)%nat with (16 + 16 * k)%nat by lia. now rewrite sub_app_split. }
  replace (1 + k)%nat with (k + 1)%nat in T by lia.
  split; [|split; auto].
  apply (check_coded s0 s2 0 (16 * k) k W C T K eq_refl); [rewrite RH, R1, incoming_0, app_nil_r; auto|rewrite incoming_0; cbn [app plus]; now rewrite S].
Qed.

Lemma field_of : forall m off len n P, (off + len <= n)%nat -> sub 0 n m = P -> be_dec (sub off len m) = field P off len.
Proof. intros m off len n P L S. rewrite field_be. f_equal. rewrite <- S. symmetry. rewrite sub_sub by lia. reflexivity. Qed.
Lemma byte_field : forall m off n P, (off < n)%nat -> (n <= length m)%nat -> sub 0 n m = P -> byte off m = field P off 1.
Proof. intros m off n P L LM S. rewrite byte_is_be by lia. apply (field_of _ _ _ n); auto; lia. Qed.
Lemma octs_of : forall m off len n P, (off + len <= n)%nat -> sub 0 n m = P -> sub off len m = octs_at P off len.
Proof. intros m off len n P L S. rewrite <- S. change octs_at with (fun m a b => sub a b m). cbv beta. now rewrite sub_sub by lia. Qed.

Lemma get_accept_val : forall v, get_accept v <> CNTRL_INVALID -> get_accept v = v.
Proof. intros v. unfold get_accept. destruct ((0 <=? v) && (v <=? 5)); congruence. Qed.

Lemma accept_checked : forall s rc a p sid s', wf s -> ciphers s = true -> read_accept D H s = (rc, (a, p, sid), s') ->
  let m := incoming D s 3 in
  (rc = ErrOK -> coded H (hkey s) (rhm s) m 32 /\ a = field m 0 1 /\ p = field m 2 2 /\ sid = octs_at m 4 16) /\
  (is_st StAcceptSession s = true -> quiet s -> (48 <= length (inp s))%nat -> ~ coded H (hkey s) (rhm s) m 32 -> rc <> ErrOK /\ st s' = 0).
Proof.
  intros s rc a p sid s' W C R m. unfold read_accept in R.
  destruct (is_st StAcceptSession s) eqn:S; cbn [negb] in R.
  2:{ inversion R; subst. split; [discriminate|discriminate]. }
  destruct (recv_blocks D s 0 3) as [r c] eqn:RB.
  destruct r.
  2:{ inversion R; subst. split; [discriminate|]. intros. split; [discriminate|reflexivity]. }
  2:{ inversion R; subst. split; [discriminate|]. intros. split; [discriminate|reflexivity]. }
  destruct (recv_check s 2 c W C ltac:(lia) RB) as (K1 & K2 & K3 & K4). change (2 + 1)%nat with 3%nat in *. fold m in K1, K2.
  change (16 * 2)%nat with 32%nat in *.
  assert (LM: length (msg c) = 400%nat) by apply K4.
  destruct (rhm_check H (rhm_add c 0 2) 32) as [b c1] eqn:CH. cbn [fst] in K1.
  apply check_msg in CH. destruct CH as (CH & _). rewrite (proj1 (rhm_msg _ _ _)) in CH.
  destruct b; cbn [negb] in R.
  2:{ inversion R; subst. split; [discriminate|]. intros. split; [discriminate|reflexivity]. }
  destruct K1 as [K1 _]. specialize (K1 eq_refl).
  split; [|intros; contradiction].
  destruct (get_accept (byte 0 (msg c1)) =? CNTRL_INVALID) eqn:G; inversion R; subst rc a p sid; [discriminate|]. intros _. split; [exact K1|].
  rewrite get_accept_val by lia. rewrite CH.
  split; [apply (byte_field _ 0 48); auto; lia|split; [apply (field_of _ _ _ 48); auto; lia|apply (octs_of _ _ _ 48); auto; lia]].
Qed.

Lemma start_ack_checked : forall s rc a s', wf s -> ciphers s = true -> read_start_ack D H s = (rc, a, s') ->
  let m := incoming D s 2 in
  (rc = ErrOK -> coded H (hkey s) (rhm s) m 16 /\ a = field m 0 1) /\
  (is_st StStartAck s = true -> quiet s -> (32 <= length (inp s))%nat -> ~ coded H (hkey s) (rhm s) m 16 -> rc <> ErrOK /\ st s' = 0).
Proof.
  intros s rc a s' W C R m. unfold read_start_ack in R.
  destruct (is_st StStartAck s) eqn:S; cbn [negb] in R.
  2:{ inversion R; subst. split; [discriminate|discriminate]. }
  destruct (recv_blocks D s 0 2) as [r c] eqn:RB.
  destruct r.
  2:{ inversion R; subst. split; [discriminate|]. intros. split; [discriminate|reflexivity]. }
  2:{ inversion R; subst. split; [discriminate|]. intros. split; [discriminate|reflexivity]. }
  destruct (recv_check s 1 c W C ltac:(lia) RB) as (K1 & K2 & K3 & K4). change (1 + 1)%nat with 2%nat in *. fold m in K1, K2.
  change (16 * 1)%nat with 16%nat in *.
  assert (LM: length (msg c) = 400%nat) by apply K4.
  destruct (rhm_check H (rhm_add c 0 1) 16) as [b c1] eqn:CH. cbn [fst] in K1.
  apply check_msg in CH. destruct CH as (CH & _). rewrite (proj1 (rhm_msg _ _ _)) in CH.
  destruct b; cbn [negb] in R.
  2:{ inversion R; subst. split; [discriminate|]. intros. split; [discriminate|reflexivity]. }
  destruct K1 as [K1 _]. specialize (K1 eq_refl).
  split; [|intros; contradiction].
  destruct (get_accept (byte 0 (msg c1)) =? CNTRL_INVALID) eqn:G; inversion R; subst rc a; [discriminate|]. intros _. split; [exact K1|].
  rewrite get_accept_val by lia. rewrite CH. apply (byte_field _ 0 32); auto; lia.
Qed.

Lemma fetch_ack_checked : forall s rc a fin next nsk nd s', wf s -> ciphers s = true -> read_fetch_ack D H s = (rc, (a, fin, next, nsk, nd), s') ->
  let m := incoming D s 2 in
  (rc = ErrOK -> coded H (hkey s) (rhm s) m 16 /\ a = field m 0 1 /\ fin = field m 1 1 /\ next = field m 4 4 /\ nsk = field m 8 4 /\ nd = field m 12 4) /\
  (is_st StFetchAck s = true -> quiet s -> (32 <= length (inp s))%nat -> ~ coded H (hkey s) (rhm s) m 16 -> rc <> ErrOK /\ st s' = 0).
Proof.
  intros s rc a fin next nsk nd s' W C R m. unfold read_fetch_ack in R.
  destruct (is_st StFetchAck s) eqn:S; cbn [negb] in R.
  2:{ inversion R; subst. split; [discriminate|discriminate]. }
  destruct (recv_blocks D s 0 2) as [r c] eqn:RB.
  destruct r.
  2:{ inversion R; subst. split; [discriminate|]. intros. split; [discriminate|reflexivity]. }
  2:{ inversion R; subst. split; [discriminate|]. intros. split; [discriminate|reflexivity]. }
  destruct (recv_check s 1 c W C ltac:(lia) RB) as (K1 & K2 & K3 & K4). change (1 + 1)%nat with 2%nat in *. fold m in K1, K2.
  change (16 * 1)%nat with 16%nat in *.
  assert (LM: length (msg c) = 400%nat) by apply K4.
  destruct (rhm_check H (rhm_add c 0 1) 16) as [b c1] eqn:CH. cbn [fst] in K1.
  apply check_msg in CH. destruct CH as (CH & _). rewrite (proj1 (rhm_msg _ _ _)) in CH.
  destruct b; cbn [negb] in R.
  2:{ inversion R; subst. split; [discriminate|]. intros. split; [discriminate|reflexivity]. }
  destruct K1 as [K1 _]. specialize (K1 eq_refl).
  split; [|intros; contradiction].
  destruct (get_accept (byte 0 (msg c1)) =? CNTRL_INVALID) eqn:G; inversion R; subst rc a fin next nsk nd; [discriminate|]. intros _. split; [exact K1|].
  rewrite get_accept_val by lia. rewrite CH.
  repeat match goal with |- _ /\ _ => split end;
    [apply (byte_field _ 0 32)|apply (byte_field _ 1 32)|apply (field_of _ _ _ 32)|apply (field_of _ _ _ 32)|apply (field_of _ _ _ 32)]; auto; lia.
Qed.

Lemma start_checked : forall s s1 rc s', wf s -> ciphers s = true -> read_request_type D s = (2, s1) -> read_start D H s1 = (rc, s') ->
  let m := incoming D s 2 in
  (rc = ErrOK -> coded H (hkey s) (rhm s) m 16) /\
  (quiet s -> (32 <= length (inp s))%nat -> ~ coded H (hkey s) (rhm s) m 16 -> rc <> ErrOK /\ st s' = 0).
Proof.
  intros s s1 rc s' W C RT R m. destruct (request_first s 2 s1 W C RT ltac:(lia)) as (T & M & RH & B).
  unfold read_start in R.
  pose proof (request_bit s 2 s1 RT ltac:(lia)) as S. cbn [Z.to_nat Pos.to_nat Pos.iter_op nth] in S. change (is_st StStartSessions s1 = true) in S.
  rewrite S in R. cbn [negb] in R.
  assert (QQ: quiet s -> (32 <= length (inp s))%nat -> exists c, recv_blocks D s1 16 1 = (IODone, c)).
  { intros q l. apply recv_quiet; [apply T, q|]. destruct T as (_ & -> & _). rewrite skipn_length. lia. }
  destruct (recv_blocks D s1 16 1) as [r c] eqn:RB.
  destruct r as [| |i].
  2:{ inversion R; subst. split; [discriminate|]. intros. split; [discriminate|reflexivity]. }
  2:{ split; [destruct i; inversion R; discriminate|]. intros q l _. destruct (QQ q l) as [? X]. discriminate. }
  destruct (request_rest s s1 1 c W C T M RH ltac:(lia) ltac:(lia) RB) as (K1 & K2 & K3). change (1 + 1)%nat with 2%nat in *. fold m in K1, K2.
  change (16 * 1)%nat with 16%nat in *.
  destruct (rhm_check H (rhm_add c 0 1) 16) as [b c1] eqn:CH. cbn [fst] in K1.
  destruct b; cbn [negb] in R.
  2:{ inversion R; subst. split; [discriminate|]. intros. split; [discriminate|reflexivity]. }
  split; [intros _; now apply K1|]. intros _ _ N. exfalso. apply N. now apply K1.
Qed.

Lemma fetch_checked : forall s s1 rc b e sid s', wf s -> ciphers s = true -> read_request_type D s = (4, s1) ->
  read_fetch D H s1 = (rc, (b, e, sid), s') ->
  let m := incoming D s 3 in
  (rc = ErrOK -> coded H (hkey s) (rhm s) m 32 /\ b = field m 8 4 /\ e = field m 12 4 /\ sid = octs_at m 16 16) /\
  (twoway s = false -> quiet s -> (48 <= length (inp s))%nat -> ~ coded H (hkey s) (rhm s) m 32 -> rc <> ErrOK /\ st s' = 0).
Proof.
  intros s s1 rc b e sid s' W C RT R m. destruct (request_first s 4 s1 W C RT ltac:(lia)) as (T & M & RH & B).
  unfold read_fetch in R.
  pose proof (request_bit s 4 s1 RT ltac:(lia)) as S. change (is_st StFetchSession s1 = true) in S.
  rewrite S in R. cbn [negb] in R.
  assert (TW: twoway s1 = twoway s) by apply T. rewrite TW in R.
  destruct (twoway s). { inversion R; subst. split; discriminate. }
  assert (QQ: quiet s -> (48 <= length (inp s))%nat -> exists c, recv_blocks D s1 16 2 = (IODone, c)).
  { intros q l. apply recv_quiet; [apply T, q|]. destruct T as (_ & -> & _). rewrite skipn_length. lia. }
  destruct (recv_blocks D s1 16 2) as [r c] eqn:RB.
  destruct r as [| |i].
  2:{ inversion R; subst. split; [discriminate|]. intros. split; [discriminate|reflexivity]. }
  2:{ split; [destruct i; inversion R; discriminate|]. intros _ q l _. destruct (QQ q l) as [? X]. discriminate. }
  destruct (request_rest s s1 2 c W C T M RH ltac:(lia) ltac:(lia) RB) as (K1 & K2 & K3). change (2 + 1)%nat with 3%nat in *. fold m in K1, K2.
  change (16 * 2)%nat with 32%nat in *.
  assert (LM: length (msg c) = 400%nat) by apply K3.
  destruct (rhm_check H (rhm_add c 0 2) 32) as [bb c1] eqn:CH. cbn [fst] in K1.
  apply check_msg in CH. destruct CH as (CH & _). rewrite (proj1 (rhm_msg _ _ _)) in CH.
  destruct bb; cbn [negb] in R.
  2:{ inversion R; subst. split; [discriminate|]. intros. split; [discriminate|reflexivity]. }
  assert (K: coded H (hkey s) (rhm s) m 32) by now apply K1.
  split; [|intros; contradiction].
  destruct (negb (byte 0 (msg c1) =? 4)); inversion R; [discriminate|]. intros _. split; [exact K|]. subst. rewrite CH.
  repeat match goal with |- _ /\ _ => split end;
    [apply (field_of _ _ _ 48)|apply (field_of _ _ _ 48)|apply (octs_of _ _ _ 48)]; auto; lia.
Qed.

Lemma took_trans : forall s0 s n k s', took s0 s n -> took s s' k -> (quiet s0 -> quiet s') -> took s0 s' (n + k) /\ incoming D s0 (n + k) = incoming D s0 n ++ incoming D s k.
Proof.
  intros s0 s n k s' (A1 & A2 & A3 & A4 & A5 & A6 & A7 & A8 & A9) (B1 & B2 & B3 & B4 & B5 & B6 & B7 & B8 & B9) Q.
  rewrite A2, skipn_length in B1.
  pose proof (cbc_dec_app n k (key s0) (riv s0) (inp s0) ltac:(lia)) as AP.
  rewrite <- A3, <- A2, <- A6 in AP. 
  unfold took, incoming. rewrite !cbc_dec_firstn in *. rewrite A6 in *. rewrite AP. cbn [fst snd].
  split; [|f_equal].
  repeat match goal with |- _ /\ _ => split end; auto; try congruence; try apply B8.
  - lia.
  - rewrite B2, A2, skipn_skipn. f_equal. lia.
Qed.

Lemma slots_took : forall n base s i keep l s', wf base -> ciphers base = true -> took base s i -> rhm s = rhm base ++ incoming D base i ->
  read_slots_loop D s n keep = (Some l, s') ->
  took base s' (i + n) /\ rhm s' = rhm base ++ incoming D base (i + n) /\ (keep = true -> length l = n).
Proof.
  induction n as [|n IH]; intros base s i keep l s' W C T RH R; cbn [read_slots_loop] in R.
  - inversion R; subst. rewrite Nat.add_0_r. auto.
  - destruct (recv_blocks D s 0 1) as [r c] eqn:RB. destruct r; try discriminate.
    destruct (recv_took base s i 0 1 c W T C ltac:(lia) RB) as (A1 & A2 & _ & A3 & _).
    assert (CC: ciphers c = true). { unfold ciphers in *. destruct A1 as (_ & _ & _ & -> & _). exact C. }
    assert (RH1: rhm (rhm_add c 0 1) = rhm base ++ incoming D base (i + 1)).
    { unfold rhm_add. rewrite CC. cbn [rhm set_rhm]. rewrite A3, RH, A2. now rewrite app_assoc. }
    pose proof (took_rhm _ _ _ 0 1 A1) as A1'.
    destruct keep.
    + destruct (decode_slot (sub 0 16 (msg (rhm_add c 0 1)))) as [x|]; [|discriminate].
      destruct (read_slots_loop D (rhm_add c 0 1) n true) as [[l0|] c2] eqn:RL; [|discriminate].
      inversion R; subst. destruct (IH base (rhm_add c 0 1) (i + 1)%nat true l0 s' W C A1' RH1 RL) as (B1 & B2 & B3).
      replace (i + S n)%nat with (i + 1 + n)%nat by lia. split; [exact B1|]. split; [exact B2|]. intros _. cbn [length]. rewrite B3; auto.
    + destruct (IH base (rhm_add c 0 1) (i + 1)%nat false l s' W C A1' RH1 R) as (B1 & B2 & B3).
      replace (i + S n)%nat with (i + 1 + n)%nat by lia. split; [exact B1|]. split; [exact B2|discriminate].
Qed.

(** the code that follows [i] blocks already added *)
Lemma code_after : forall base s i s1, wf base -> ciphers base = true -> took base s i -> rhm s = rhm base ++ incoming D base i ->
  recv_blocks D s 0 1 = (IODone, s1) ->
  took base s1 (i + 1) /\
  (fst (rhm_check H s1 0) = true <-> coded H (hkey base) (rhm base) (incoming D base (i + 1)) (16 * i)).
Proof.
  intros base s i s1 W C T RH R.
  destruct (recv_took base s i 0 1 s1 W T C ltac:(lia) R) as (A1 & A2 & _ & A3 & _).
  split; [exact A1|].
  assert (CC: ciphers s1 = true). { unfold ciphers in *. destruct A1 as (_ & _ & _ & -> & _). exact C. }
  assert (LM: length (msg s1) = 400%nat) by apply A1.
  pose proof (incoming_len base s i W T) as LI.
  unfold rhm_check. rewrite CC. cbn [fst]. rewrite eqb_octets_spec. unfold coded.
  assert (HK: hkey s1 = hkey base) by apply A1.
  rewrite HK, A3, RH, A2.
  pose proof (octs_tail (incoming D base i) (msg s1) i 0 LI ltac:(lia)) as X. pose proof (octs_head (incoming D base i) (msg s1) i 0 LI ltac:(lia)) as Y.
  change (16 * 0 + 16)%nat with (16 * 1)%nat in X, Y. change (16 * 0)%nat with 0%nat in X, Y. rewrite Nat.add_0_r in X, Y. 
  change (sub 0 0 (msg s1)) with (@nil Z) in Y. rewrite app_nil_r in Y. rewrite X, Y. tauto.
Qed.

Lemma slots_fail_dead : forall n s keep s', read_slots_loop D s n keep = (None, s') -> st s' = 0.
Proof.
  induction n as [|n IH]; intros s keep s' R; cbn [read_slots_loop] in R; [discriminate|].
  destruct (recv_blocks D s 0 1) as [r c]. destruct r; try (inversion R; reflexivity).
  destruct keep.
  - destruct (decode_slot _); [|inversion R; reflexivity].
    destruct (read_slots_loop D (rhm_add c 0 1) n true) as [[l0|] c2] eqn:RL; [discriminate|]. inversion R; subst. eauto.
  - eauto.
Qed.

Lemma test_checked : forall s t s1 al sl rc q a s', wf s -> ciphers s = true -> read_request_type D s = (t, s1) ->
  t = (if twoway s then 5 else 1) -> read_test_request D H s1 true al sl = (rc, q, a, s') ->
  let m := incoming D s 7 in
  (rc = ErrOK ->
     coded H (hkey s) (rhm s) m 96 /\
     (twoway s = false -> exists r l, q = Some r /\ ts_slots (q_spec r) = Some l /\
        coded H (hkey s) [] (skipn 112 (incoming D s (8 + length l))) (16 * length l) /\
        inp s' = skipn (16 * (8 + length l)) (inp s))) /\
  (quiet s -> (112 <= length (inp s))%nat -> ~ coded H (hkey s) (rhm s) m 96 -> rc <> ErrOK /\ st s' = 0).
Proof.
  intros s t s1 al sl rc q a s' W C RT TT R m.
  assert (TR: 1 <= t <= 5) by (destruct (twoway s); lia).
  destruct (request_first s t s1 W C RT TR) as (T & M & RH & B).
  unfold read_test_request in R.
  pose proof (request_bit s t s1 RT TR) as S. 
  assert (TW: twoway s1 = twoway s) by apply T. rewrite TW in R.
  assert (S': is_st (if twoway s then StTestRequestTW else StTestRequest) s1 = true) by (rewrite TT in S; destruct (twoway s); exact S).
  rewrite S' in R. cbn [negb] in R.
  assert (QQ: quiet s -> (112 <= length (inp s))%nat -> exists c, recv_blocks D s1 16 6 = (IODone, c)).
  { intros qq l. apply recv_quiet; [apply T, qq|]. destruct T as (_ & -> & _). rewrite skipn_length. lia. }
  destruct (recv_blocks D s1 16 6) as [r c] eqn:RB.
  destruct r as [| |i].
  2:{ inversion R; subst. split; [discriminate|]. intros. split; [discriminate|reflexivity]. }
  2:{ inversion R; subst. split; [discriminate|]. intros. split; [discriminate|reflexivity]. }
  destruct (request_rest s s1 6 c W C T M RH ltac:(lia) ltac:(lia) RB) as (K1 & K2 & K3). change (6 + 1)%nat with 7%nat in *. fold m in K1, K2.
  change (16 * 6)%nat with 96%nat in *.
  destruct (rhm_check H (rhm_add c 0 6) 96) as [bb c1] eqn:CH. cbn [fst] in K1.
  destruct bb; cbn [negb] in R.
  2:{ inversion R; subst. split; [discriminate|]. intros. split; [discriminate|reflexivity]. }
  assert (K: coded H (hkey s) (rhm s) m 96) by now apply K1.
  split; [|intros; contradiction].
  intros ->. split; [exact K|]. intros TWs.
  assert (C1: took s c1 7 /\ rhm c1 = []).
  { assert (CC: ciphers c = true) by (unfold ciphers in *; destruct K3 as (_ & _ & _ & -> & _); exact C).
    unfold rhm_check, rhm_add in CH. rewrite CC in CH.
    change (ciphers (set_rhm c (rhm c ++ sub 0 (16 * 6) (msg c)))) with (ciphers c) in CH. rewrite CC in CH.
    assert (X: c1 = set_rhm (set_rhm c (rhm c ++ sub 0 (16 * 6) (msg c))) []) by congruence. subst c1. split; [exact K3|reflexivity]. }
  destruct C1 as [C1 C2].
  destruct (decode_preamble true (sub 0 112 (msg c1)) 112 (twoway c1) 128) as [p| |]; try discriminate.
  destruct (negb (ll_scope_ok (remote c1) (p_sender p))); [discriminate|].
  destruct (negb (ll_scope_ok (remote c1) (p_receiver p))); [discriminate|].
  destruct (negb al); [discriminate|].
  assert (TW1: twoway c1 = false) by (destruct C1 as (_ & _ & _ & _ & -> & _); exact TWs).
  change (twoway (or_st (clr_st c1 StTestRequest) StTestRequestSlots)) with (twoway c1) in R. rewrite TW1 in R.
  set (cb := or_st (clr_st c1 StTestRequest) StTestRequestSlots) in *.
  assert (CB: took s cb 7) by exact C1.
  assert (Wb: wf cb) by apply CB.
  assert (Cb: ciphers cb = true) by (unfold ciphers in *; destruct CB as (_ & _ & _ & -> & _); exact C).
  assert (Rb: rhm cb = []) by exact C2.
  set (keep := sl || (p_nslots p <=? 10)) in *.
  unfold read_slots in R.
  destruct (negb (is_st StTestRequestSlots cb)). { discriminate. }
  destruct (read_slots_loop D cb (Z.to_nat (p_nslots p)) keep) as [[l|] c3] eqn:RL; [|discriminate].
  destruct (slots_took _ cb cb 0 keep l c3 Wb Cb (took_refl cb Wb) ltac:(rewrite incoming_0, app_nil_r; auto) RL) as (B1 & B2 & B3).
  cbn [plus] in B1, B2.
  destruct (recv_blocks D c3 0 1) as [r4 c4] eqn:RB4. destruct r4; try discriminate.
  destruct (code_after cb c3 _ c4 Wb Cb B1 B2 RB4) as (B4 & B5).
  destruct (rhm_check H c4 0) as [ok c5] eqn:CH5. cbn [fst] in B5. destruct ok; [|discriminate].
  destruct keep eqn:KE; [|discriminate].
  specialize (B3 eq_refl). inversion R; subst q s'. eexists _, l. split; [reflexivity|]. split; [reflexivity|].
  rewrite <- B3 in *.
  assert (IL: (16 * 7 <= length (inp s))%nat) by apply C1.
  destruct (took_trans s cb 7 (length l + 1) c4 CB B4) as (U1 & U2). { intros qq. apply B4, CB, qq. }
  replace (8 + length l)%nat with (7 + (length l + 1))%nat by lia.
  pose proof (incoming_len s cb 7 W CB) as L7.
  split.
  - rewrite U2. change (16 * 7)%nat with 112%nat in L7.
    replace (skipn 112 (incoming D s 7 ++ incoming D cb (length l + 1))) with (incoming D cb (length l + 1)).
    2:{ rewrite skipn_app, L7, skipn_all2 by lia. rewrite Nat.sub_diag. reflexivity. }
    assert (HK: hkey cb = hkey s) by apply CB. rewrite <- HK.
    pose proof (proj1 B5 eq_refl) as B6. rewrite Rb in B6. exact B6.
  - destruct (check_msg _ _ _ _ CH5) as (_ & _ & X & _). unfold or_st, clr_st. cbn [inp set_st]. rewrite X. apply U1.
Qed.

Lemma skips_took : forall n base s i odd prev b w s', wf base -> ciphers base = true -> took base s i -> rhm s = rhm base ++ incoming D base i ->
  read_skips D s n odd prev = (b, w, s') -> b = true ->
  exists j, took base s' j /\ rhm s' = rhm base ++ incoming D base j.
Proof.
  induction n as [|n IH]; intros base s i odd prev b w s' W C T RH R Hb; cbn [read_skips] in R.
  - inversion R; subst. eauto.
  - destruct odd.
    + cbn [negb] in R.
      destruct (_ <? _) in R; [inversion R; congruence|]. destruct (_ && _) in R; [inversion R; congruence|].
      destruct (read_skips D s n false prev) as [[ok w0] c1] eqn:RS. inversion R; subst. eapply IH; eauto.
    + destruct (recv_blocks D s 0 1) as [r c] eqn:RB. destruct r; try (inversion R; congruence).
      destruct (recv_took base s i 0 1 c W T C ltac:(lia) RB) as (A1 & A2 & _ & A3 & _).
      assert (CC: ciphers c = true). { unfold ciphers in *. destruct A1 as (_ & _ & _ & -> & _). exact C. }
      assert (RH1: rhm (rhm_add c 0 1) = rhm base ++ incoming D base (i + 1)).
      { unfold rhm_add. rewrite CC. cbn [rhm set_rhm]. rewrite A3, RH, A2. now rewrite app_assoc. }
      pose proof (took_rhm _ _ _ 0 1 A1) as A1'. cbn [negb] in R.
      destruct (_ <? _) in R; [inversion R; congruence|]. destruct (_ && _) in R; [inversion R; congruence|].
      destruct (read_skips D (rhm_add c 0 1) n true prev) as [[ok w0] c1] eqn:RS. inversion R; subst. eapply IH; eauto.
Qed.

Variable clean : list Z -> Z -> bool.
Variable save : list Z -> bool.

Lemma stop_took : forall n base s i ts rv bh b ts' rv' bh' fs s', wf base -> ciphers base = true -> took base s i -> rhm s = rhm base ++ incoming D base i ->
  read_stop_sessions D clean save s n ts rv bh = (b, ts', rv', bh', fs, s') -> b = true ->
  exists j, took base s' j /\ rhm s' = rhm base ++ incoming D base j.
Proof.
  induction n as [|n IH]; intros base s i ts rv bh b ts' rv' bh' fs s' W C T RH R Hb; cbn [read_stop_sessions] in R.
  - inversion R; subst. eauto.
  - destruct (recv_blocks D s 0 1) as [r c] eqn:RB. destruct r; try (inversion R; congruence).
    destruct (recv_took base s i 0 1 c W T C ltac:(lia) RB) as (A1 & A2 & _ & A3 & _).
    assert (CC: ciphers c = true). { unfold ciphers in *. destruct A1 as (_ & _ & _ & -> & _). exact C. }
    assert (RH1: rhm (rhm_add c 0 1) = rhm base ++ incoming D base (i + 1)).
    { unfold rhm_add. rewrite CC. cbn [rhm set_rhm]. rewrite A3, RH, A2. now rewrite app_assoc. }
    pose proof (took_rhm _ _ _ 0 1 A1) as A1'.
    destruct (find_receiver _ rv) as [[[t rv1] bh1]|]; [|inversion R; congruence].
    destruct (recv_blocks D (rhm_add c 0 1) 0 1) as [r2 c2] eqn:RB2. destruct r2; try (inversion R; congruence).
    destruct (recv_took base _ _ 0 1 c2 W A1' C ltac:(lia) RB2) as (D1 & D2 & _ & D3 & _).
    assert (CC2: ciphers c2 = true). { unfold ciphers in *. destruct D1 as (_ & _ & _ & -> & _). exact C. }
    assert (RH2: rhm (rhm_add c2 0 1) = rhm base ++ incoming D base (i + 1 + 1)).
    { unfold rhm_add. rewrite CC2. cbn [rhm set_rhm]. rewrite D3, RH1, D2. now rewrite app_assoc. }
    pose proof (took_rhm _ _ _ 0 1 D1) as D1'.
    destruct (negb (clean _ _)); [inversion R; congruence|].
    destruct (read_skips D (rhm_add c2 0 1) _ true 0) as [[ok w] c3] eqn:RS.
    destruct ok; cbn [negb] in R; [|inversion R; congruence].
    destruct (skips_took _ base _ _ _ _ _ _ _ W C D1' RH2 RS eq_refl) as (j & J1 & J2).
    destruct (_ && _) in R; [inversion R; congruence|].
    destruct (negb (save _)); [inversion R; congruence|].
    destruct (read_stop_sessions D clean save c3 n (t :: ts) rv1 bh1) as [[[[[b6 ts6] rv6] bh6] fs6] c6] eqn:R6.
    inversion R; subst. eapply IH; eauto.
Qed.

Lemma stop_checked : forall s s1 ts rc a ts' fs s', wf s -> ciphers s = true -> read_request_type D s = (3, s1) ->
  read_stop D H clean save s1 ts = (rc, a, ts', fs, s') ->
  (rc = ErrOK -> exists n, coded H (hkey s) (rhm s) (incoming D s (n + 1)) (16 * n) /\ inp s' = skipn (16 * (n + 1)) (inp s)) /\
  (rc <> ErrOK -> is_st StRequest s1 && is_st StTest s1 = true -> st s' = 0).
Proof.
  intros s s1 ts rc a ts' fs s' W C RT R. destruct (request_first s 3 s1 W C RT ltac:(lia)) as (T & M & RH & B).
  unfold read_stop in R.
  destruct (is_st StRequest s1 && is_st StTest s1); cbn [negb] in R; [|inversion R; split; intros; discriminate].
  destruct (get_accept (byte 1 (msg s1)) =? CNTRL_INVALID); [inversion R; split; [intros; discriminate|reflexivity]|].
  assert (C1: ciphers s1 = true) by (unfold ciphers in *; destruct T as (_ & _ & _ & -> & _); exact C).
  assert (RH1: rhm (rhm_add s1 0 1) = rhm s ++ incoming D s 1).
  { unfold rhm_add. rewrite C1. cbn [rhm set_rhm]. rewrite RH. f_equal. exact M. }
  pose proof (took_rhm _ _ _ 0 1 T) as T'.
  set (c := rhm_add s1 0 1) in *.
  assert (F: forall (tt : list tsess) (ff : list stored) cc i x1 x2 x3 x4 x5, took s cc i -> rhm cc = rhm s ++ incoming D s i ->
     match recv_blocks D cc 0 1 with
     | (IODone, c) => let (ok, c) := rhm_check H c 0 in
         if ok then (ErrOK, get_accept (byte 1 (msg s1)), tt, ff, or_st (clr_st c StStopSessions) StRequest)
         else (ErrFATAL, CNTRL_FAILURE, tt, ff, invalid c)
     | (IOShort, c) => (ErrFATAL, CNTRL_FAILURE, tt, ff, invalid c)
     | (IOFailed _, c) => (ErrFATAL, CNTRL_FAILURE, tt, ff, invalid c)
     end = (x1, x2, x3, x4, x5) ->
     (x1 = ErrOK -> exists n, coded H (hkey s) (rhm s) (incoming D s (n + 1)) (16 * n) /\ inp x5 = skipn (16 * (n + 1)) (inp s)) /\
     (x1 <> ErrOK -> st x5 = 0)).
  { intros tt ff cc i x1 x2 x3 x4 x5 Tc Rc X. destruct (recv_blocks D cc 0 1) as [r c4] eqn:RB4.
    destruct r; try (inversion X; subst; split; [discriminate|reflexivity]).
    destruct (code_after s cc i c4 W C Tc Rc RB4) as (B4 & B5).
    destruct (rhm_check H c4 0) as [ok c5] eqn:CH5. cbn [fst] in B5. destruct ok; inversion X; subst; [|split; [discriminate|reflexivity]].
    split; [|congruence]. intros _. exists i. split; [now apply B5|].
    destruct (check_msg _ _ _ _ CH5) as (_ & _ & Y & _). unfold or_st, clr_st. cbn [inp set_st]. rewrite Y. apply B4. }
  destruct (twoway c) eqn:TW.
  - destruct (negb _) in R; [inversion R; split; [intros; discriminate|reflexivity]|]. destruct (F _ _ _ _ _ _ _ _ _ T' RH1 R) as [F1 F2]. split; [exact F1|intros N _; exact (F2 N)].
  - destruct (pull_receivers ts []) as [[snds|] rv]; [|inversion R; split; [intros; discriminate|reflexivity]].
    destruct (read_stop_sessions D clean save c (Z.to_nat (be_dec (sub 4 4 (msg s1)))) snds rv []) as [[[[[ok ts1] rv1] bh1] fs1] c1] eqn:RS.
    destruct ok; cbn [negb] in R; [|inversion R; split; [intros; discriminate|reflexivity]].
    destruct (stop_took _ s _ _ _ _ _ _ _ _ _ _ _ W C T' RH1 RS eq_refl) as (j & J1 & J2).
    destruct bh1; [|inversion R; split; [intros; discriminate|reflexivity]].
    destruct (match recv_blocks D c1 0 1 with
    | (IODone, c) => let (ok, c) := rhm_check H c 0 in
        if ok then (ErrOK, get_accept (byte 1 (msg s1)), ts1, fs1, or_st (clr_st c StStopSessions) StRequest)
        else (ErrFATAL, CNTRL_FAILURE, ts1, fs1, invalid c)
    | (IOShort, c) => (ErrFATAL, CNTRL_FAILURE, ts1, fs1, invalid c)
    | (IOFailed _, c) => (ErrFATAL, CNTRL_FAILURE, ts1, fs1, invalid c)
    end) as [[[[x1 x2] x3] x4] x5] eqn:XX.
    destruct (F _ _ _ _ _ _ _ _ _ J1 J2 XX) as [F1 F2].
    inversion R; subst. split; [exact F1|intros N _; exact (F2 N)].
Qed.

End J.

(** ** Readers: a known code, or an invalid connection *)
Section K.
Variables (D H : list Z -> list Z -> list Z).

Lemma get_accept_code : forall v, get_accept v = CNTRL_INVALID \/ accept_code (get_accept v).
Proof. intros v. unfold get_accept, accept_code. destruct ((0 <=? v) && (v <=? 5)) eqn:G; [right|left; auto]. lia. Qed.

Lemma accept_or_dead : forall s rc a p sid s', read_accept D H s = (rc, (a, p, sid), s') -> is_st StAcceptSession s = true ->
  (rc = ErrOK /\ accept_code a) \/ (rc = ErrFATAL /\ st s' = 0).
Proof.
  intros s rc a p sid s' R S. unfold read_accept in R. rewrite S in R. cbn [negb] in R.
  destruct (recv_blocks D s 0 3) as [r c]. destruct r; try (inversion R; subst; right; split; reflexivity).
  destruct (rhm_check H (rhm_add c 0 2) 32) as [b c1]. destruct b; cbn [negb] in R; [|inversion R; subst; right; split; reflexivity].
  destruct (get_accept_code (byte 0 (msg c1))) as [G|G].
  - rewrite G in R. cbn in R. inversion R; subst; right; split; reflexivity.
  - destruct (_ =? CNTRL_INVALID) in R; inversion R; subst; [right; split; reflexivity|left; auto].
Qed.

Lemma start_ack_or_dead : forall s rc a s', read_start_ack D H s = (rc, a, s') -> is_st StStartAck s = true ->
  (rc = ErrOK /\ accept_code a) \/ (rc = ErrFATAL /\ st s' = 0).
Proof.
  intros s rc a s' R S. unfold read_start_ack in R. rewrite S in R. cbn [negb] in R.
  destruct (recv_blocks D s 0 2) as [r c]. destruct r; try (inversion R; subst; right; split; reflexivity).
  destruct (rhm_check H (rhm_add c 0 1) 16) as [b c1]. destruct b; cbn [negb] in R; [|inversion R; subst; right; split; reflexivity].
  destruct (get_accept_code (byte 0 (msg c1))) as [G|G].
  - rewrite G in R. cbn in R. inversion R; subst; right; split; reflexivity.
  - destruct (_ =? CNTRL_INVALID) in R; inversion R; subst; [right; split; reflexivity|left; auto].
Qed.

Lemma fetch_ack_or_dead : forall s rc a f n k d s', read_fetch_ack D H s = (rc, (a, f, n, k, d), s') -> is_st StFetchAck s = true ->
  (rc = ErrOK /\ accept_code a) \/ (rc = ErrFATAL /\ st s' = 0).
Proof.
  intros s rc a f n k d s' R S. unfold read_fetch_ack in R. rewrite S in R. cbn [negb] in R.
  destruct (recv_blocks D s 0 2) as [r c]. destruct r; try (inversion R; subst; right; split; reflexivity).
  destruct (rhm_check H (rhm_add c 0 1) 16) as [b c1]. destruct b; cbn [negb] in R; [|inversion R; subst; right; split; reflexivity].
  destruct (get_accept_code (byte 0 (msg c1))) as [G|G].
  - rewrite G in R. cbn in R. inversion R; subst; right; split; reflexivity.
  - destruct (_ =? CNTRL_INVALID) in R; inversion R; subst; [right; split; reflexivity|left; auto].
Qed.

Lemma server_start_or_dead : forall s rc a u s', read_server_start D s = (rc, (a, u), s') -> st s = StSetup ->
  (rc = ErrOK /\ accept_code a) \/ (rc = ErrFATAL /\ st s' = 0).
Proof.
  intros s rc a u s' R S. unfold read_server_start in R. rewrite S in R. cbn [negb Z.eqb] in R. change (StSetup =? StSetup) with true in R. cbn [negb] in R.
  destruct (read_raw s 0 32) as [r c]. destruct r; try (inversion R; subst; right; split; reflexivity).
  destruct (get_accept_code (byte 15 (msg c))) as [G|G].
  - rewrite G in R. cbn in R. inversion R; subst; right; split; reflexivity.
  - destruct (_ =? CNTRL_INVALID) in R; [inversion R; subst; right; split; reflexivity|].
    destruct (recv_blocks D _ 0 1) as [r2 c2] in R. destruct r2; try (inversion R; subst; right; split; reflexivity).
    inversion R; subst. left; auto.
Qed.

Lemma type_or_dead : forall s t s', read_request_type D s = (t, s') -> is_st StRequest s = true -> is_st StReading s = false ->
  (1 <= t <= 5 /\ (t = 3 <-> is_st StTest s = true)) \/ st s' = 0.
Proof.
  intros s t s' R S1 S2. unfold read_request_type in R. rewrite S1, S2 in R. cbn [negb orb] in R.
  destruct (recv_blocks D s 0 1) as [r c] eqn:RB.
  assert (K: st c = st s).
  { clear R. unfold recv_blocks, read_raw in RB. destruct (io s) as [|[|]]; try (inversion RB; subst; reflexivity).
    - destruct (length (inp s) <? 16 * 1)%nat; [inversion RB; subst; reflexivity|]. destruct (ciphers _) in RB; [|inversion RB; subst; reflexivity].
      destruct (cbc_dec _ _ _ _ _) in RB. inversion RB; subst; reflexivity.
    - destruct (length (inp s) <? 16 * 1)%nat; [inversion RB; subst; reflexivity|]. destruct (ciphers _) in RB; [|inversion RB; subst; reflexivity].
      destruct (cbc_dec _ _ _ _ _) in RB. inversion RB; subst; reflexivity. }
  assert (K2: is_st StTest c = is_st StTest s) by (unfold is_st; now rewrite K).
  destruct r as [| |[]]; try (inversion R; subst; right; reflexivity).
  rewrite K2 in R. set (b := byte 0 (msg c)) in *. clearbody b.
  destruct (is_st StTest s) eqn:TS; cbn [andb orb negb] in R.
  - destruct (b =? 3) eqn:B3; cbn [negb orb] in R; [|inversion R; subst; right; reflexivity].
    replace (b =? 1) with false in R by lia. replace (b =? 2) with false in R by lia. inversion R; subst. left. lia.
  - destruct (b =? 3) eqn:B3; cbn [negb orb] in R; [inversion R; subst; right; reflexivity|].
    destruct (b =? 1) eqn:B1; [inversion R; subst; left; lia|].
    destruct (b =? 2) eqn:B2; [inversion R; subst; left; lia|].
    destruct (b =? 4) eqn:B4; [inversion R; subst; left; lia|].
    destruct (b =? 5) eqn:B5; [inversion R; subst; left; lia|].
    inversion R; subst; right; reflexivity.
Qed.
End K.
