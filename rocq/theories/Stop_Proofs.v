(** Proofs about the Stop-Sessions exchange. *)
From Coq Require Import ZArith List Bool Lia ZifyBool ZifyNat Arith Permutation.
From Verif Require Import Base BaseLemmas Puts Time_Model Time_Proofs Sched_Model Wire_Model Wire_Spec Wire_Proofs Control_Model Control_Spec
  Control_Proofs Control_Integrity Stop_Model Stop_Spec.
Import ListNotations.
Open Scope Z_scope.
Ltac Zify.zify_post_hook ::= Z.div_mod_to_equations.

(** ** buffers *)
Lemma put_in_prefix : forall o x b m, (o + length x <= length b)%nat -> (length b <= length m)%nat ->
  put o x (put 0 b m) = put 0 (put o x b) m.
Proof.
  intros o x b m H1 H2. unfold put. cbn [firstn skipn app].
  rewrite (firstn_app o b), (skipn_app (o + length x) b).
  replace (o - length b)%nat with 0%nat by lia. replace (o + length x - length b)%nat with 0%nat by lia.
  cbn [firstn skipn]. rewrite app_nil_r.
  replace (length (firstn o b ++ x ++ skipn (o + length x) b)) with (length b).
  2:{ rewrite !app_length, firstn_length, skipn_length. lia. }
  cbn [plus]. now rewrite <- !app_assoc.
Qed.

(** eight-octet units put together to blocks *)
Fixpoint pairs (l : list (list Z)) : list (list Z) :=
  match l with
  | [] => []
  | [a] => [a ++ zeros 8]
  | a :: b :: r => (a ++ b) :: pairs r
  end.

Lemma two_step : forall (P : list (list Z) -> Prop), P [] -> (forall a, P [a]) -> (forall a b r, P r -> P (a :: b :: r)) -> forall l, P l.
Proof.
  intros P P0 P1 P2. assert (G: forall n l, (length l <= n)%nat -> P l).
  { induction n; intros l Hl; destruct l as [|a [|b r]]; cbn in Hl; auto; try lia. apply P2. apply IHn. lia. }
  intros l. eauto.
Qed.

Fixpoint units (n : nat) (f : list Z) : list (list Z) :=
  match n with O => [] | S k => firstn 8 f :: units k (skipn 8 f) end.
Lemma units_concat : forall n f, length f = (8 * n)%nat -> concat (units n f) = f.
Proof. induction n; intros f L; cbn [units concat]. { destruct f; auto; discriminate. } rewrite IHn by (rewrite skipn_length; lia). apply firstn_skipn. Qed.
Lemma units_len : forall n f, length (units n f) = n.
Proof. induction n; intros; cbn; auto. Qed.
Lemma units_len8 : forall n f, length f = (8 * n)%nat -> Forall (fun u => length u = 8%nat) (units n f).
Proof. induction n; intros f L; cbn [units]; constructor. { rewrite firstn_length. lia. } apply IHn. rewrite skipn_length. lia. Qed.

Section Stop.
Variable E D H : list Z -> list Z -> list Z.
Hypothesis BC : block_cipher E D.
Hypothesis HL : digest20 H.

(** one block on its way *)
Definition step (c c1 : ctl) (b o : list Z) : Prop :=
  length b = 16%nat /\ sent c c1 o /\ same c c1 /\ wf c1 /\
  forall s rest, wf s -> quiet s -> linked c s -> inp s = o ++ rest ->
    exists s1, recv_blocks D s 0 1 = (IODone, s1) /\ sub 0 16 (msg (rhm_add s1 0 1)) = b /\
      agree c1 (rhm_add s1 0 1) rest /\ same s (rhm_add s1 0 1).

Inductive feeds : ctl -> ctl -> list (list Z) -> list Z -> Prop :=
| f_nil : forall c, feeds c c [] []
| f_cons : forall c c1 c2 b bs o1 o2, step c c1 b o1 -> feeds c1 c2 bs o2 -> feeds c c2 (b :: bs) (o1 ++ o2).

Lemma feeds_app : forall c c1 a o1, feeds c c1 a o1 -> forall c2 b o2, feeds c1 c2 b o2 -> feeds c c2 (a ++ b) (o1 ++ o2).
Proof using. induction 1; intros c3 b' o3 F; cbn [app]; auto. rewrite <- app_assoc. econstructor; eauto. Qed.
Lemma feeds_out : forall c c' bs o, feeds c c' bs o -> sent c c' o /\ same c c' /\ (wf c -> wf c').
Proof using.
  induction 1 as [c|c c1 c2 b bs o1 o2 (L & S1 & S2 & S3 & _) F (IH1 & IH2 & IH3)].
  - split; [unfold sent; now rewrite app_nil_r|]. split; [apply same_refl|auto].
  - split; [unfold sent in *; now rewrite IH1, S1, app_assoc|]. split; [eapply same_trans; eauto|auto].
Qed.

Lemma slot_step' : forall c b c1, wf c -> length b = 16%nat ->
  send_blocks E (shm_add (set_msg c (put 0 b (msg c))) 0 1) 0 1 = (IODone, c1) -> exists o, step c c1 b o.
Proof using BC.
  intros c b c1 W L S. destruct (slot_step E D BC c b c1 W L S) as (o & A & B & C & F). exists o. unfold step. auto.
Qed.

Lemma sid_step : forall c sid c1 sid', wf c -> length sid = 16%nat ->
  send_sid E (if ciphers c then set_shm c (shm c ++ sid) else c) sid = (IODone, sid', c1) -> exists o, step c c1 sid o.
Proof using BC.
  intros c b c1 sid' (W1 & W2 & W3) Hb HS.
  exists (fst (wire E (ciphers c) (key c) (wiv c) b)).
  assert (C1: c1 = let c0 := if ciphers c then set_shm c (shm c ++ b) else c in
     set_outp (set_wiv c0 (snd (wire E (ciphers c) (key c) (wiv c) b))) (outp c ++ fst (wire E (ciphers c) (key c) (wiv c) b)) (tl (io c))).
  { unfold send_sid, wire in *. destruct (ciphers c) eqn:C.
    - change (ciphers (set_shm c (shm c ++ b))) with (ciphers c) in HS. rewrite C in HS. cbn [key wiv set_shm] in HS.
      rewrite Hb. change (16 / 16)%nat with 1%nat.
      destruct (cbc_enc E (key c) (wiv c) 1 b) as [ct iv]. unfold write_raw in HS. cbn [io set_wiv set_shm] in HS. cbn [fst snd].
      destruct (io c) as [|[|] r] eqn:I; inversion HS; reflexivity.
    - rewrite C in HS. unfold write_raw in HS. cbn [fst snd]. destruct (io c) as [|[|] r] eqn:I; inversion HS; destruct c; cbn in *; subst; reflexivity. }
  cbv zeta in C1.
  destruct (wire_len E D BC (ciphers c) 1 (key c) (wiv c) b Hb W3) as [L1 L2].
  split; auto.
  assert (X: outp c1 = outp c ++ fst (wire E (ciphers c) (key c) (wiv c) b) /\ same c c1 /\ msg c1 = msg c /\ riv c1 = riv c /\
     wiv c1 = snd (wire E (ciphers c) (key c) (wiv c) b) /\ shm c1 = (if ciphers c then shm c ++ b else shm c)).
  { subst c1. unfold same. destruct (ciphers c); cproj; tauto. }
  clear C1 HS. destruct X as (X1 & X2 & X3 & X4 & X5 & X6).
  split; [exact X1|]. split; [exact X2|].
  assert (Wc1: wf c1) by (unfold wf; rewrite X3, X4, X5; auto).
  split; [exact Wc1|].
  intros s rest Ws Q (K1 & K2 & K3 & K4 & K5 & K6) Hi.
  assert (C: ciphers s = ciphers c) by (unfold ciphers; congruence).
  destruct (recv0 E D BC s 1 b rest Ws Q Hb ltac:(lia)) as (s1 & R1 & G & R2). { rewrite Hi, C, K3, K5. reflexivity. }
  pose proof (wf_got E D BC _ _ _ _ 1%nat Ws G Hb) as Ws1.
  destruct G as (G1 & G2 & G3 & G4 & G5 & G6 & G7 & G8 & G9).
  assert (Cs1: ciphers s1 = ciphers c) by (rewrite <- C; now apply ciphers_same).
  exists s1. split; auto. rewrite Hb in G9.
  destruct X2 as (C81 & C82 & C83 & C84 & C85 & C86 & C87), G1 as (G11 & G12 & G13 & G14 & G15 & G16 & G17).
  unfold rhm_add. rewrite Cs1. change (16 * 1)%nat with 16%nat. rewrite G9.
  rewrite C in G3. rewrite <- K3, <- K5 in G3.
  unfold agree, linked, quiet, same in *.
  destruct (ciphers c); cproj; repeat match goal with |- _ /\ _ => split end; try tauto; try congruence; try exact Wc1; try exact Ws1.
Qed.

(** ** the writer *)
Lemma write_blocks_feeds : forall n us c rest c', wf c -> length us = (2 * n)%nat -> Forall (fun u => length u = 8%nat) us ->
  forall tl, write_skip_blocks E c n (concat us ++ tl) = (Some rest, c') -> rest = tl /\ exists o, feeds c c' (pairs us) o.
Proof using BC.
  induction n; intros us c rest c' W L F tl HW; cbn [write_skip_blocks] in HW.
  - destruct us; [|cbn in L; lia]. cbn in HW. inversion HW; subst. split; auto. exists []. cbn. constructor.
  - destruct us as [|a [|b us]]; cbn in L; try lia. inversion F as [|? ? La F1]; subst. inversion F1 as [|? ? Lb F2]; subst.
    cbn [concat] in HW.
    assert (Q: (a ++ b ++ concat us) ++ tl = (a ++ b) ++ (concat us ++ tl)) by now rewrite <- !app_assoc.
    rewrite Q in HW. assert (Lab: length (a ++ b) = 16%nat) by (rewrite app_length; lia).
    rewrite firstn_app_len, skipn_app_len in HW by auto.
    destruct (Nat.ltb_spec (length ((a ++ b) ++ concat us ++ tl)) 16) as [X|X]; [rewrite app_length in X; lia|].
    destruct (send_blocks E _ 0 1) as [[| |] c1] eqn:SB; try discriminate.
    destruct (slot_step' c (a ++ b) c1 W Lab SB) as (o1 & S1).
    pose proof S1 as (_ & _ & _ & W1 & _).
    destruct (IHn us c1 rest c' W1 ltac:(lia) F2 tl HW) as (-> & o2 & F3).
    split; auto. exists (o1 ++ o2). cbn [pairs]. econstructor; eauto.
Qed.

Lemma pairs_odd : forall us a, (exists k, length us = (2 * k)%nat) -> pairs (us ++ [a]) = pairs us ++ [a ++ zeros 8].
Proof using.
  intros us a. pattern us. apply two_step; clear us.
  - reflexivity.
  - intros x [k L]. cbn in L. lia.
  - intros x y r IH [k L]. cbn [app pairs]. rewrite IH; auto. exists (k - 1)%nat. cbn in L. lia.
Qed.

Lemma write_skips_feeds : forall us c c', wf c -> Forall (fun u => length u = 8%nat) us ->
  write_skips E c (Z.of_nat (length (concat us))) (concat us) = (true, c') -> exists o, feeds c c' (pairs us) o.
Proof using BC.
  intros us c c' W F HW.
  assert (LC: length (concat us) = (8 * length us)%nat).
  { clear HW. induction F as [|u us Hu F IH]; cbn [concat length]; auto. rewrite app_length. lia. }
  unfold write_skips in HW. rewrite LC in HW.
  destruct (Z.ltb_spec (Z.of_nat (8 * length us)) 0); [discriminate|].
  set (n := Z.to_nat (Z.of_nat (8 * length us) / 16)) in *.
  destruct (Nat.Even_or_Odd (length us)) as [[k K]|[k K]].
  - assert (N: n = k) by (unfold n; lia). rewrite N in *.
    destruct (write_skip_blocks E c k (concat us)) as [[rest|] c1] eqn:WB; [|discriminate].
    rewrite <- (app_nil_r (concat us)) in WB. destruct (write_blocks_feeds k us c rest c1 W ltac:(lia) F [] WB) as (-> & o & F1).
    assert (M: Z.of_nat (8 * length us) mod 16 = 0) by lia. rewrite M in HW. cbn in HW. inversion HW; subst. eauto.
  - assert (N: n = k) by (unfold n; lia). rewrite N in *.
    assert (U: us <> []) by (intro; subst us; cbn in K; lia).
    destruct (exists_last U) as (us' & a & ->). rewrite app_length in K. cbn [length] in K.
    apply Forall_app in F. destruct F as [F1 F2]. assert (La: length a = 8%nat) by (inversion F2; assumption).
    rewrite concat_app in HW. cbn [concat] in HW. rewrite app_nil_r in HW.
    destruct (write_skip_blocks E c k (concat us' ++ a)) as [[rest|] c1] eqn:WB; [|discriminate].
    destruct (write_blocks_feeds k us' c rest c1 W ltac:(lia) F1 a WB) as (-> & o & F3).
    rewrite app_length in HW. cbn [length] in HW.
    assert (M: Z.of_nat (8 * (length us' + 1)) mod 16 = 8) by lia. rewrite M in HW. change (8 =? 8) with true in HW. cbv iota in HW.
    destruct (Nat.ltb_spec (length a) 8); [lia|].
    rewrite (firstn_all2 a) in HW by lia.
    pose proof (feeds_out _ _ _ _ F3) as (_ & _ & W1). specialize (W1 W).
    assert (Lm: length (msg c1) = 400%nat) by apply W1.
    assert (PP: put 8 (zeros 8) (put 0 a (msg c1)) = put 0 (a ++ zeros 8) (msg c1)).
    { unfold put. change (firstn 0 (msg c1)) with (@nil Z). rewrite !app_nil_l, app_length, zeros_length, La.
      rewrite (firstn_app_len _ a) by auto. rewrite <- !app_assoc. do 2 f_equal.
      rewrite skipn_app, La. rewrite (skipn_all2 a) by lia. rewrite app_nil_l, skipn_skipn. f_equal. }
    rewrite PP in HW.
    destruct (send_blocks E _ 0 1) as [[| |] c2] eqn:SB; try discriminate. inversion HW; subst c2.
    destruct (slot_step' c1 (a ++ zeros 8) c' W1) as (o2 & S2); auto. { rewrite app_length, zeros_length. lia. }
    exists (o ++ o2 ++ []). rewrite pairs_odd by (exists k; lia).
    eapply feeds_app; eauto. econstructor; [exact S2|constructor].
Qed.

Definition report_units (f : list Z) : list (list Z) := units (length f / 8) f.

Definition session_blocks (t : tsess) : list (list Z) :=
  t_sid t :: pairs (report_units (match t_end t with Some e => e_skips e | None => [] end)).

Lemma report_mult8 : forall f, report f -> length f = (8 * (length f / 8))%nat /\ (1 <= length f / 8)%nat /\
  report_count f = Z.of_nat (length f / 8) - 1.
Proof using.
  intros f (O & L & _).
  assert (0 <= report_count f).
  { unfold report_count, field. rewrite number_be. apply be_dec_bound. change (octs_at f 4 4) with (sub 4 4 f). apply sub_octets. exact O. }
  lia.
Qed.

Lemma write_sessions_feeds : forall ts c ts' c', wf c -> Forall reported ts ->
  write_stop_sessions E c ts = (true, ts', c') ->
  exists o, feeds c c' (concat (map session_blocks (senders ts))) o.
Proof using BC.
  induction ts as [|t ts IH]; intros c ts' c' W F HW; cbn [write_stop_sessions] in HW.
  - inversion HW; subst. exists []. constructor.
  - inversion F as [|? ? [Ft1 Ft2] F2]; subst. unfold senders. cbn [filter]. unfold is_sender at 1.
    destruct (t_end t) as [e|] eqn:Et; [|contradiction].
    destruct (e_send e) eqn:Es; cbn [negb] in HW.
    2:{ destruct (write_stop_sessions E c ts) as [[b r] c1] eqn:WR. inversion HW; subst. apply (IH _ _ _ W F2 WR). }
    destruct (send_sid E _ (t_sid t)) as [[[| |] sid'] c1] eqn:SS; try discriminate.
    destruct (sid_step c (t_sid t) c1 sid' W Ft1 SS) as (o1 & S1).
    destruct (Ft2 eq_refl) as (Sz & R). pose proof S1 as (_ & _ & _ & W1 & _).
    destruct (write_skips E c1 (e_size e) (e_skips e)) as [[|] c2] eqn:WS; [|discriminate].
    destruct (write_stop_sessions E c2 ts) as [[b r] c3] eqn:WR. inversion HW; subst b ts' c'.
    destruct (report_mult8 _ R) as (M1 & M2 & M3).
    rewrite Sz in WS. unfold report_units in *.
    assert (UC: concat (units (length (e_skips e) / 8) (e_skips e)) = e_skips e) by (apply units_concat; auto).
    rewrite <- UC in WS. 
    destruct (write_skips_feeds _ _ _ W1 (units_len8 _ _ M1) WS) as (o2 & F3).
    pose proof (feeds_out _ _ _ _ F3) as (_ & _ & W2). specialize (W2 W1).
    destruct (IH _ _ _ W2 F2 WR) as (o3 & F4).
    cbn [map concat]. exists ((o1 ++ o2) ++ o3). eapply feeds_app; [|exact F4]. unfold session_blocks. rewrite Et.
    econstructor; eauto.
Qed.

(** ** the reader *)
Definition ready (c s : ctl) : Prop := wf s /\ quiet s /\ linked c s.

Lemma read_one : forall c c' b bs o s rest, feeds c c' (b :: bs) o -> ready c s -> inp s = o ++ rest ->
  length b = 16%nat /\
  exists s1 c1 o2, recv_blocks D s 0 1 = (IODone, s1) /\ sub 0 16 (msg (rhm_add s1 0 1)) = b /\
    feeds c1 c' bs o2 /\ ready c1 (rhm_add s1 0 1) /\ inp (rhm_add s1 0 1) = o2 ++ rest /\ same s (rhm_add s1 0 1).
Proof using.
  intros c c' b bs o s rest F (R1 & R2 & R3) Hi. inversion F as [|? c1 ? ? ? o1 o2 S1 F2]; subst.
  destruct S1 as (L & _ & _ & _ & K). rewrite <- app_assoc in Hi. split; auto.
  destruct (K s _ R1 R2 R3 Hi) as (s1 & A1 & A2 & (B1 & B2 & B3 & B4 & B5) & A3).
  exists s1, c1, o2. unfold ready. auto 10.
Qed.

Definition valid_unit (u : list Z) : Prop := length u = 8%nat /\ be_dec (sub 0 4 u) <= be_dec (sub 4 4 u).

Lemma pairs_cons : forall a r, pairs (a :: r) = (a ++ match r with [] => zeros 8 | b :: _ => b end) :: pairs (tl r).
Proof using. intros a [|b r]; reflexivity. Qed.

Lemma read_skips_even : forall recs c c' more o s rest, Forall valid_unit recs ->
  feeds c c' (pairs recs ++ more) o -> ready c s -> inp s = o ++ rest ->
  exists s' c1 o2, read_skips D s (length recs) false 0 = (true, concat recs, s') /\
    feeds c1 c' more o2 /\ ready c1 s' /\ inp s' = o2 ++ rest /\ same s s' /\
    ((length recs mod 2)%nat = 1%nat -> sub 8 8 (msg s') = zeros 8).
Proof using.
  intros recs. pattern recs. apply two_step; clear recs.
  - intros c c' more o s rest _ F R Hi. cbn [pairs app] in F. exists s, c, o. cbn [length read_skips concat].
    split; auto. split; auto. split; auto. split; auto. split; [apply same_refl|]. intros X. cbn in X. discriminate.
  - intros a c c' more o s rest V F R Hi. inversion V as [|? ? [La Va] _]; subst. cbn [pairs app] in F.
    destruct (read_one _ _ _ _ _ _ _ F R Hi) as (Lb & s1 & c1 & o2 & A1 & A2 & A3 & A4 & A5 & A6).
    cbn [length read_skips]. rewrite A1.
    assert (P1: sub 0 8 (msg (rhm_add s1 0 1)) = a).
    { rewrite (sub_of_prefix 0 8 16 _ _ ltac:(lia) A2). unfold sub. cbn [skipn]. apply firstn_app_len; auto. }
    assert (P2: sub 8 8 (msg (rhm_add s1 0 1)) = zeros 8).
    { rewrite (sub_of_prefix 8 8 16 _ _ ltac:(lia) A2). unfold sub. rewrite skipn_app_len by auto. reflexivity. }
    rewrite P1. destruct (Z.ltb_spec (be_dec (sub 4 4 a)) (be_dec (sub 0 4 a))); [lia|]. cbn [Z.eqb negb andb].
    exists (rhm_add s1 0 1), c1, o2. auto 10.
  - intros a b r IH c c' more o s rest V F R Hi.
    inversion V as [|? ? [La Va] V1]; subst. inversion V1 as [|? ? [Lb Vb] V2]; subst. cbn [pairs app] in F.
    destruct (read_one _ _ _ _ _ _ _ F R Hi) as (_ & s1 & c1 & o2 & A1 & A2 & A3 & A4 & A5 & A6).
    destruct (IH _ _ _ _ _ _ V2 A3 A4 A5) as (s' & c2 & o3 & B1 & B2 & B3 & B4 & B5 & B6).
    cbn [length read_skips]. rewrite A1.
    assert (P1: sub 0 8 (msg (rhm_add s1 0 1)) = a).
    { rewrite (sub_of_prefix 0 8 16 _ _ ltac:(lia) A2). unfold sub. cbn [skipn]. apply firstn_app_len; auto. }
    assert (P2: sub 8 8 (msg (rhm_add s1 0 1)) = b).
    { rewrite (sub_of_prefix 8 8 16 _ _ ltac:(lia) A2). unfold sub. rewrite skipn_app_len by auto. apply firstn_all2. lia. }
    rewrite P1. destruct (Z.ltb_spec (be_dec (sub 4 4 a)) (be_dec (sub 0 4 a))); [lia|]. cbn [Z.eqb negb andb].
    rewrite P2. destruct (Z.ltb_spec (be_dec (sub 4 4 b)) (be_dec (sub 0 4 b))); [lia|]. cbn [Z.eqb negb andb].
    rewrite B1. exists s', c2, o3. cbn [concat]. split; auto. split; auto. split; auto. split; auto.
    split; [eapply same_trans; eauto|]. intros X. apply B6. rewrite <- X. change (S (S (length r))) with (2 + length r)%nat. lia.
Qed.

Lemma read_skips_odd : forall h recs c c' more o s rest, Forall valid_unit recs -> length h = 8%nat ->
  sub 0 16 (msg s) = h ++ match recs with [] => zeros 8 | b :: _ => b end ->
  feeds c c' (pairs (tl recs) ++ more) o -> ready c s -> inp s = o ++ rest ->
  exists s' c1 o2, read_skips D s (length recs) true 0 = (true, concat recs, s') /\
    feeds c1 c' more o2 /\ ready c1 s' /\ inp s' = o2 ++ rest /\ same s s' /\
    ((length recs mod 2)%nat = 0%nat -> sub 8 8 (msg s') = zeros 8).
Proof using.
  intros h recs c c' more o s rest V Lh M F R Hi.
  destruct recs as [|b r].
  - cbn [pairs tl app] in F. exists s, c, o. cbn [length read_skips concat]. repeat (split; [first [reflexivity | assumption | apply same_refl]|]).
    intros _. rewrite (sub_of_prefix 8 8 16 _ _ ltac:(lia) M). unfold sub. rewrite skipn_app_len by auto. reflexivity.
  - inversion V as [|? ? [Lb Vb] V2]; subst. cbn [tl] in F.
    destruct (read_skips_even r _ _ _ _ _ _ V2 F R Hi) as (s' & c2 & o3 & B1 & B2 & B3 & B4 & B5 & B6).
    assert (P2: sub 8 8 (msg s) = b).
    { rewrite (sub_of_prefix 8 8 16 _ _ ltac:(lia) M). unfold sub. rewrite skipn_app_len by auto. apply firstn_all2. lia. }
    cbn [length read_skips]. rewrite P2.
    destruct (Z.ltb_spec (be_dec (sub 4 4 b)) (be_dec (sub 0 4 b))); [lia|]. cbn [Z.eqb negb andb]. rewrite B1.
    exists s', c2, o3. cbn [concat]. repeat (split; [first [reflexivity | assumption]|]).
    intros X. apply B6. rewrite !Nat.mod_eq in * by lia. lia.
Qed.

Lemma units_nth : forall n f k u, nth_error (units n f) k = Some u -> u = sub (8 * k) 8 f.
Proof using.
  induction n; intros f k u Hu; cbn [units] in Hu; [destruct k; discriminate|].
  destruct k; cbn [nth_error] in Hu.
  - inversion Hu. reflexivity.
  - apply IHn in Hu. subst u. unfold sub. rewrite skipn_skipn. do 2 f_equal. lia.
Qed.

Lemma report_parts : forall f, report f -> exists h recs, report_units f = h :: recs /\ length h = 8%nat /\
  concat recs = skipn 8 f /\ Forall valid_unit recs /\ Z.of_nat (length recs) = report_count f /\
  be_dec (sub 0 4 h) = report_next f /\ be_dec (sub 4 4 h) = report_count f.
Proof using.
  intros f R. destruct (report_mult8 _ R) as (M1 & M2 & M3). destruct R as (O & L & V).
  unfold report_units. destruct (length f / 8)%nat as [|n] eqn:N; [lia|]. cbn [units].
  exists (firstn 8 f), (units n (skipn 8 f)). split; auto. split; [rewrite firstn_length; lia|].
  assert (L8: length (skipn 8 f) = (8 * n)%nat) by (rewrite skipn_length; lia).
  split; [apply units_concat; auto|].
  split.
  { apply Forall_forall. intros u Hu. apply In_nth_error in Hu. destruct Hu as [k Hk].
    pose proof (units_nth _ _ _ _ Hk) as E1.
    assert (K: (k < n)%nat) by (rewrite <- (units_len n (skipn 8 f)); apply nth_error_Some; congruence).
    assert (E2: u = sub (8 + 8 * k) 8 f) by (rewrite E1; unfold sub; rewrite skipn_skipn; reflexivity).
    unfold valid_unit. rewrite E2. split; [apply sub_length; lia|]. rewrite !sub_sub by lia.
    specialize (V k ltac:(lia)). unfold range_first, range_last, field in V. rewrite !number_be in V.
    unfold octs_at in V. unfold sub. replace (8 + 8 * k + 0)%nat with (8 + 8 * k)%nat by lia.
    replace (8 + 8 * k + 4)%nat with (12 + 8 * k)%nat by lia. exact V. }
  split; [rewrite units_len; lia|].
  unfold report_next, report_count, field. rewrite !number_be. change (firstn 8 f) with (sub 0 8 f). rewrite !sub_sub by lia. split; reflexivity.
Qed.

Lemma find_receiver_in : forall sid rv, In sid (map t_sid rv) -> exists t l bh, find_receiver sid rv = Some (t, l, bh) /\
  t_sid t = sid /\ Permutation rv (t :: l) /\ (length bh <= length l)%nat.
Proof using.
  induction rv as [|x rv IH]; intros HI; [destruct HI|]. cbn [find_receiver].
  destruct (eqb_octets sid (t_sid x)) eqn:Q.
  - apply eqb_octets_spec in Q. exists x, rv, rv. auto.
  - cbn [map In] in HI. destruct HI as [HI|HI]; [subst; rewrite eqb_octets_refl in Q; discriminate|].
    destruct (IH HI) as (t & l & bh & F & T & P & L). rewrite F. exists t, (x :: l), bh.
    split; auto. split; auto. split; [|cbn; lia]. rewrite P. apply perm_swap.
Qed.

Variable clean : list Z -> Z -> bool.
Variable save : list Z -> bool.

Lemma read_sessions : forall ss tests recv behind c c' o s rest,
  Forall (fun t => reported t /\ is_sender t = true) ss ->
  Permutation (map t_sid recv) (map t_sid ss) ->
  Forall (fun t => clean (t_sid t) (s_next (arrived t)) = true /\ save (t_sid t) = true) ss ->
  feeds c c' (concat (map session_blocks ss)) o -> ready c s -> inp s = o ++ rest ->
  exists tests' s', read_stop_sessions D clean save s (length ss) tests recv behind =
     (true, tests', [], match ss with [] => behind | _ => [] end, map arrived ss, s') /\
   ready c' s' /\ inp s' = rest /\ same s s' /\ Permutation tests' (tests ++ recv).
Proof using.
  induction ss as [|t ss IH]; intros tests recv behind c c' o s rest F P W Fd R Hi.
  - cbn [map] in *. assert (recv = []) by (destruct recv; auto; apply Permutation_length in P; discriminate). subst recv.
    inversion Fd; subst. exists tests, s. cbn. split; auto. split; auto. split; auto. split; [apply same_refl|]. rewrite app_nil_r. auto.
  - inversion F as [|? ? [[Ft1 Ft2] Ft3] F2]; subst. inversion W as [|? ? [Wt1 Wt2] W2]; subst.
    unfold is_sender in Ft3. destruct (t_end t) as [e|] eqn:Et; [|discriminate].
    destruct (Ft2 Ft3) as (_ & Rp). destruct (report_parts _ Rp) as (h & recs & U1 & U2 & U3 & U4 & U5 & U6 & U7).
    cbn [map concat app] in Fd. unfold session_blocks at 1 in Fd. rewrite Et, U1, pairs_cons in Fd. cbn [app] in Fd.
    cbn [length read_stop_sessions].
    destruct (read_one _ _ _ _ _ _ _ Fd R Hi) as (_ & s1 & c1 & o1 & A1 & A2 & A3 & A4 & A5 & A6).
    rewrite A1, A2.
    destruct (find_receiver_in (t_sid t) recv) as (x & l & bh & Q1 & Q2 & Q3 & Q4).
    { rewrite P. cbn. auto. }
    rewrite Q1.
    destruct (read_one _ _ _ _ _ _ _ A3 A4 A5) as (_ & s2 & c2 & o2 & B1 & B2 & B3 & B4 & B5 & B6).
    rewrite B1.
    assert (N1: be_dec (sub 0 4 (msg (rhm_add s2 0 1))) = report_next (e_skips e)).
    { rewrite <- U6. f_equal. rewrite (sub_of_prefix 0 4 16 _ _ ltac:(lia) B2). unfold sub. cbn [skipn]. rewrite firstn_app. replace (4 - length h)%nat with 0%nat by lia. cbn [firstn]. now rewrite app_nil_r. }
    assert (N2: be_dec (sub 4 4 (msg (rhm_add s2 0 1))) = report_count (e_skips e)).
    { rewrite <- U7. f_equal. rewrite (sub_of_prefix 4 4 16 _ _ ltac:(lia) B2). unfold sub. rewrite skipn_app, firstn_app, skipn_length.
      replace (4 - (length h - 4))%nat with 0%nat by lia. cbn [firstn]. now rewrite app_nil_r. }
    rewrite N1, N2, Q2.
    unfold arrived in Wt1. rewrite Et in Wt1. cbn [s_next] in Wt1. rewrite Wt1. cbn [negb].
    rewrite <- U5, Nat2Z.id.
    destruct (read_skips_odd h recs _ _ _ _ _ _ U4 U2 B2 B3 B4 B5) as (s3 & c3 & o3 & C1 & C2 & C3 & C4 & C5 & C6).
    rewrite C1. cbn [negb].
    assert (Z8: (Z.of_nat (length recs) mod 2 =? 0) && negb (eqb_octets (sub 8 8 (msg s3)) (zeros 8)) = false).
    { destruct (Z.eqb_spec (Z.of_nat (length recs) mod 2) 0) as [M|M]; auto. rewrite C6 by lia. now rewrite eqb_octets_refl. }
    rewrite Z8, Wt2. cbn [negb].
    assert (P2: Permutation (map t_sid l) (map t_sid ss)).
    { apply (Permutation_map t_sid) in Q3. cbn [map] in Q3. rewrite Q2 in Q3.
      apply Permutation_cons_inv with (a := t_sid t). rewrite <- Q3. exact P. }
    destruct (IH (x :: tests) l bh c3 c' o3 s3 rest F2 P2 W2 C2 C3 C4) as (tests' & s' & D1 & D2 & D3 & D4 & D5).
    rewrite D1. exists tests', s'.
    assert (BH: match ss with [] => bh | _ => [] end = []).
    { destruct ss; auto. apply Permutation_length in P2. rewrite !map_length in P2. cbn in P2. destruct bh; auto. cbn in Q4. lia. }
    rewrite BH. split. { cbn [map]. unfold arrived at 2. rewrite Et, U3, U5. reflexivity. }
    split; auto. split; auto. split. { eapply same_trans; [exact A6|]. eapply same_trans; [exact B6|]. eapply same_trans; eauto. }
    rewrite D5, Q3. cbn [app]. apply Permutation_middle.
Qed.

Lemma pull_spec : forall ts rv, all_open ts ->
  pull_receivers ts rv = (Some (senders ts), rev (receivers ts) ++ rv).
Proof using.
  induction ts as [|t ts IH]; intros rv O; [reflexivity|]. inversion O as [|? ? Ot O2]; subst. cbn [pull_receivers].
  unfold senders, receivers. cbn [filter]. unfold is_sender at 1, is_receiver at 1.
  destruct (t_end t) as [e|] eqn:Et; [|congruence]. destruct (e_send e) eqn:Es; cbn [negb].
  - rewrite (IH rv O2). reflexivity.
  - rewrite (IH (t :: rv) O2). cbn [rev]. rewrite <- app_assoc. reflexivity.
Qed.

Lemma split_open : forall ts, all_open ts -> Permutation ts (senders ts ++ receivers ts).
Proof using.
  induction 1 as [|t ts Ot O IH]; [constructor|]. unfold senders, receivers. cbn [filter]. unfold is_sender at 1, is_receiver at 1.
  destruct (t_end t) as [e|]; [|congruence]. destruct (e_send e); cbn [negb].
  - cbn [app]. constructor. exact IH.
  - apply Permutation_cons_app. exact IH.
Qed.

Lemma rhm_add_st : forall s x, rhm_add (set_st s x) 0 1 = set_st (rhm_add s 0 1) x.
Proof using. intros. unfold rhm_add. change (ciphers (set_st s x)) with (ciphers s). destruct (ciphers s); reflexivity. Qed.

Lemma stop_roundtrip : forall c c' s a ts ts' tests o rest,
  wf c -> wf s -> quiet s -> linked c s -> twoway c = false -> st s = StRequest + StTest ->
  accept_code a -> Forall reported ts -> Z.of_nat (length ts) < 2^32 ->
  all_open tests -> Permutation (map t_sid (receivers tests)) (map t_sid (senders ts)) ->
  Forall (fun t => clean (t_sid t) (s_next (arrived t)) = true /\ save (t_sid t) = true) (senders ts) ->
  write_stop E H c a (Z.of_nat (length (senders ts))) ts = (ErrOK, ts', c') -> sent c c' o -> inp s = o ++ rest ->
  exists s1 tests' s', read_request_type D s = (3, s1) /\
    read_stop D H clean save s1 tests = (ErrOK, a, tests', map arrived (senders ts), s') /\
    Permutation tests tests' /\ agree c' s' rest /\ st c' = st c /\ st s' = StRequest + StTest.
Proof using BC HL.
  intros c c' s a ts ts' tests o rest Wc Ws Q L Tw Hst Ha Rp Ln Op Pm Wd HW So Hi.
  unfold write_stop in HW. destruct (negb (is_st StRequest c && is_st StTest c)); [discriminate|].
  rewrite land255 in HW by (unfold accept_code in Ha; lia).
  assert (Lz: length (put 0 [3; a] (zeros 16)) = 16%nat) by reflexivity.
  assert (Bz: byte 0 (put 0 [3; a] (zeros 16)) = 3 /\ byte 1 (put 0 [3; a] (zeros 16)) = a) by (split; reflexivity).
  set (z := put 0 [3; a] (zeros 16)) in *.
  set (b := put 4 (be_enc 4 (Z.of_nat (length (senders ts)))) z).
  assert (Lm: length (msg c) = 400%nat) by apply Wc.
  assert (Mb: put 4 (be_enc 4 (Z.of_nat (length (senders ts)))) (put 0 [3; a] (put 0 (zeros 16) (msg c))) = put 0 b (msg c)).
  { unfold b. rewrite (put_in_prefix 0 [3; a] (zeros 16)) by (rewrite ?zeros_length; cbn [length]; lia). fold z.
    rewrite put_in_prefix by (rewrite ?be_enc_length; lia). reflexivity. }
  rewrite Mb in HW.
  assert (Tw0: twoway (shm_add (set_msg c (put 0 b (msg c))) 0 1) = false).
  { unfold shm_add. change (ciphers (set_msg c (put 0 b (msg c)))) with (ciphers c). destruct (ciphers c); exact Tw. }
  rewrite Tw0 in HW.
  assert (Lb: length b = 16%nat) by (unfold b; rewrite put_length; rewrite ?be_enc_length; lia).
  assert (Bf: byte 0 b = 3 /\ byte 1 b = a /\ sub 4 4 b = be_enc 4 (Z.of_nat (length (senders ts)))).
  { unfold b. rewrite !byte_put_out by (rewrite ?be_enc_length; lia). destruct Bz as [Bz1 Bz2]. split; [exact Bz1|]. split; [exact Bz2|].
    apply sub_put_same; rewrite ?be_enc_length; lia. }
  destruct Bf as (B0 & B1 & B4). clearbody b.
  destruct (send_blocks E (shm_add (set_msg c (put 0 b (msg c))) 0 1) 0 1) as [[| |] c1] eqn:SB; try discriminate.
  destruct (slot_step' c b c1 Wc Lb SB) as (o1 & S1). pose proof S1 as (_ & So1 & Sm1 & Wc1 & K1).
  destruct (write_stop_sessions E c1 ts) as [[[|] ts1] c2] eqn:WS; [|discriminate].
  destruct (write_sessions_feeds ts c1 ts1 c2 Wc1 Rp WS) as (o2 & F2).
  pose proof (feeds_out _ _ _ _ F2) as (So2 & Sm2 & Wc2). specialize (Wc2 Wc1).
  destruct (send_blocks E (shm_digest H c2 0) 0 1) as [[| |] c3] eqn:SB3; try discriminate.
  destruct (tag_step E D H BC HL c2 c3 Wc2 SB3) as (o3 & So3 & Sm3 & Wc3 & K3).
  inversion HW; subst ts' c'; clear HW.
  assert (Oo: o = o1 ++ o2 ++ o3).
  { unfold sent in *. rewrite So3, So2, So1 in So. rewrite <- !app_assoc in So. apply app_inv_head in So. auto. }
  rewrite Oo, <- !app_assoc in Hi.
  destruct (K1 s _ Ws Q L Hi) as (s1 & R1 & M1 & (A1 & A2 & A3 & A4 & A5) & Ss1).
  assert (Msg: msg (rhm_add s1 0 1) = msg s1) by (unfold rhm_add; destruct (ciphers s1); reflexivity).
  assert (Same1: same s s1).
  { unfold same in *. unfold rhm_add in Ss1. destruct (ciphers s1); exact Ss1. }
  rewrite Msg in M1.
  assert (By: forall i, (i < 16)%nat -> byte i (msg s1) = byte i b).
  { intros i Hi16. apply byte_sub_eq. apply (sub_of_prefix i 1 16 _ _ ltac:(lia) M1). }
  assert (Bs: forall x l, (x + l <= 16)%nat -> sub x l (msg s1) = sub x l b).
  { intros x l Hx. apply (sub_of_prefix x l 16 _ _ Hx M1). }
  assert (By0: byte 0 (msg s1) = 3) by (rewrite By by lia; exact B0).
  rewrite (request_type_of D s s1 3); auto; try lia.
  2:{ intros _. rewrite Hst. discriminate. }
  change (nth (Z.to_nat 3) [0; StTestRequest; StStartSessions; StStopSessions; StFetchSession; StTestRequestTW] 0) with StStopSessions.
  set (x := Z.lor (st s1) StStopSessions). change (or_st s1 StStopSessions) with (set_st s1 x).
  assert (Stx: x = StRequest + StTest + StStopSessions).
  { unfold x. destruct Same1 as (_ & _ & _ & _ & _ & _ & ->). rewrite Hst. reflexivity. }
  exists (set_st s1 x).
  unfold read_stop. assert (I1: is_st StRequest (set_st s1 x) && is_st StTest (set_st s1 x) = true) by (unfold is_st; cproj; rewrite Stx; reflexivity).
  rewrite I1. cbn [negb]. change (msg (set_st s1 x)) with (msg s1).
  rewrite By by lia. rewrite B1, get_accept_ok by auto.
  assert (Ai: a =? CNTRL_INVALID = false) by (unfold accept_code, CNTRL_INVALID in *; lia). rewrite Ai.
  rewrite rhm_add_st. cbv zeta.
  assert (Ls: (length (senders ts) <= length ts)%nat) by (unfold senders; clear; induction ts as [|y l IH]; cbn; [lia|]; destruct (is_sender y); cbn; lia).
  rewrite Bs by lia. rewrite B4, be_dec_enc by (rewrite pow32; lia).
  assert (Tws: twoway (set_st (rhm_add s1 0 1) x) = false).
  { cproj. destruct Ss1 as (_ & -> & _). destruct L as (_ & <- & _). exact Tw. }
  rewrite Tws. rewrite pull_spec by auto. rewrite app_nil_r, Nat2Z.id.
  assert (R2: ready c1 (set_st (rhm_add s1 0 1) x)) by (split; [exact A4|split; [exact A5|exact A1]]).
  assert (Fs: Forall (fun t => reported t /\ is_sender t = true) (senders ts)).
  { apply Forall_forall. intros t Ht. unfold senders in Ht. apply filter_In in Ht. split; [|tauto]. rewrite Forall_forall in Rp. apply Rp. tauto. }
  assert (Pm2: Permutation (map t_sid (rev (receivers tests))) (map t_sid (senders ts))).
  { rewrite <- Pm. apply Permutation_map. symmetry. apply Permutation_rev. }
  destruct (read_sessions (senders ts) (senders tests) (rev (receivers tests)) [] c1 c2 o2 _ (o3 ++ rest) Fs Pm2 Wd F2 R2 A2)
    as (tests' & s2 & R3 & (R4a & R4b & R4c) & R5 & R6 & R7).
  rewrite R3. cbn [negb].
  replace (match senders ts with [] => [] | _ :: _ => [] end) with (@nil tsess) by (destruct (senders ts); auto).
  destruct (K3 s2 rest R4a R4b R4c R5) as (s3 & s4 & T1 & T2 & T3 & T4).
  rewrite T1, T2. cbn [Z.eqb Pos.eqb].
  change (ErrOK =? ErrOK) with true. cbv iota.
  eexists tests', _. split; [reflexivity|]. split; [reflexivity|].
  split. { rewrite R7, (split_open tests Op) at 1. apply Permutation_app_head. apply Permutation_rev. }
  split; [exact T3|]. split.
  { destruct Sm3 as (_ & _ & _ & _ & _ & _ & ->). destruct Sm2 as (_ & _ & _ & _ & _ & _ & ->). apply Sm1. }
  unfold or_st, clr_st. cproj.
  destruct T4 as (_ & _ & _ & _ & _ & _ & ->). destruct R6 as (_ & _ & _ & _ & _ & _ & ->). cproj. rewrite Stx. reflexivity.
Qed.
End Stop.

(** ** Severities and files, whatever the message *)
Lemma read_stop_rc : forall D H clean save c tests, fst (fst (fst (fst (read_stop D H clean save c tests)))) = ErrOK \/ fst (fst (fst (fst (read_stop D H clean save c tests)))) = ErrFATAL.
Proof.
  intros D H clean save c tests.
  assert (F: forall aval (tt : list tsess) (ff : list stored) cc,
     let r := match recv_blocks D cc 0 1 with
     | (IODone, c) => let (ok, c) := rhm_check H c 0 in
         if ok then (ErrOK, aval, tt, ff, or_st (clr_st c StStopSessions) StRequest)
         else (ErrFATAL, CNTRL_FAILURE, tt, ff, invalid c)
     | (_, c) => (ErrFATAL, CNTRL_FAILURE, tt, ff, invalid c)
     end in fst (fst (fst (fst r))) = ErrOK \/ fst (fst (fst (fst r))) = ErrFATAL).
  { intros aval tt ff cc. cbv zeta. destruct (recv_blocks D cc 0 1) as [[| |] c4]; [|cbn; auto|cbn; auto]. destruct (rhm_check H c4 0) as [[|] c5]; cbn; auto. }
  unfold read_stop. destruct (negb _); [cbn; auto|]. destruct (_ =? CNTRL_INVALID); [cbn; auto|].
  destruct (twoway _).
  - destruct (negb _); [cbn; auto|]. apply F.
  - destruct (pull_receivers tests []) as [[sd|] rv]; [|cbn; auto].
    destruct (read_stop_sessions D clean save _ _ sd rv []) as [[[[[ok ts] rv2] bh] fl] c3]. destruct (negb ok); [cbn; auto|]. destruct bh; [|cbn; auto].
    match goal with |- context [match recv_blocks D ?c 0 1 with _ => _ end] => specialize (F (get_accept (byte 1 (msg c))) ts fl c3) end.
    cbv zeta in F. clear - F. destruct (recv_blocks D c3 0 1) as [[| |] c4]; [|cbn; auto|cbn; auto]. destruct (rhm_check H c4 0) as [[|] c5]; cbn; auto.
Qed.

Lemma sessions_files : forall D clean save n c tests recv behind b ts rv bh fs c',
  read_stop_sessions D clean save c n tests recv behind = (b, ts, rv, bh, fs, c') ->
  exists left, Permutation (map t_sid recv) (map s_sid fs ++ left).
Proof.
  intros D clean save. induction n as [|n IH]; intros c tests recv behind b ts rv bh fs c' R; cbn [read_stop_sessions] in R.
  { inversion R; subst. exists (map t_sid rv). reflexivity. }
  assert (Z0: forall x : list Z, exists left, Permutation (map t_sid recv) ([] ++ left)) by (intros; exists (map t_sid recv); reflexivity).
  specialize (Z0 []). destruct (recv_blocks D c 0 1) as [[| |] c1]; [|inversion R; subst; exact Z0|inversion R; subst; exact Z0].
  destruct (find_receiver _ recv) as [[[t rv1] bh1]|] eqn:Fr; [|inversion R; subst; exact Z0].
  assert (P1: Permutation (map t_sid recv) (t_sid t :: map t_sid rv1)).
  { clear - Fr. revert t rv1 bh1 Fr. induction recv as [|x r IHr]; intros t rv1 bh1 Fr; [discriminate|]. cbn [find_receiver] in Fr.
    destruct (eqb_octets _ (t_sid x)); [inversion Fr; subst; reflexivity|].
    destruct (find_receiver _ r) as [[[y l] bb]|] eqn:Q; [|discriminate]. inversion Fr; subst. cbn [map]. rewrite (IHr _ _ _ eq_refl). apply perm_swap. }
  assert (One: forall st0, s_sid st0 = t_sid t -> exists left, Permutation (map t_sid recv) (map s_sid [st0] ++ left)).
  { intros st0 Q. exists (map t_sid rv1). cbn [map app]. rewrite Q. exact P1. }
  destruct (recv_blocks D (rhm_add c1 0 1) 0 1) as [[| |] c2]; [|inversion R; subst; exact Z0|inversion R; subst; exact Z0].
  destruct (negb (clean _ _)); [inversion R; subst; exact Z0|].
  destruct (read_skips D _ _ true 0) as [[ok wr] c3].
  destruct (negb ok); [inversion R; subst; apply One; reflexivity|].
  match type of R with (if ?b then _ else _) = _ => destruct b end; [inversion R; subst; apply One; reflexivity|].
  destruct (negb (save _)); [inversion R; subst; apply One; reflexivity|].
  destruct (read_stop_sessions D clean save c3 n (t :: tests) rv1 bh1) as [[[[[b2 ts2] rv2] bh2] fs2] c4] eqn:Rec.
  inversion R; subst. destruct (IH _ _ _ _ _ _ _ _ _ _ Rec) as (left & P2). exists left. cbn [map s_sid app]. rewrite P1. constructor. exact P2.
Qed.

Lemma read_stop_files : forall D H clean save s tests rc a tests' fs s',
  read_stop D H clean save s tests = (rc, a, tests', fs, s') ->
  exists left, Permutation (map t_sid (receivers tests)) (map s_sid fs ++ left).
Proof.
  intros D H clean save s tests rc a tests' fs s' R.
  assert (Z0: exists left, Permutation (map t_sid (receivers tests)) (map s_sid [] ++ left)) by (exists (map t_sid (receivers tests)); reflexivity).
  assert (F: forall aval (tt : list tsess) (ff : list stored) cc x1 x2 x3 x4 x5,
     match recv_blocks D cc 0 1 with
     | (IODone, c) => let (ok, c) := rhm_check H c 0 in
         if ok then (ErrOK, aval, tt, ff, or_st (clr_st c StStopSessions) StRequest)
         else (ErrFATAL, CNTRL_FAILURE, tt, ff, invalid c)
     | (IOShort, c) => (ErrFATAL, CNTRL_FAILURE, tt, ff, invalid c)
     | (IOFailed _, c) => (ErrFATAL, CNTRL_FAILURE, tt, ff, invalid c)
     end = (x1, x2, x3, x4, x5) -> x4 = ff).
  { intros aval tt ff cc x1 x2 x3 x4 x5 X. destruct (recv_blocks D cc 0 1) as [[| |] c4]; [|inversion X; auto|inversion X; auto]. destruct (rhm_check H c4 0) as [[|] c5]; inversion X; auto. }
  unfold read_stop in R. destruct (negb _); [inversion R; subst; exact Z0|]. destruct (_ =? CNTRL_INVALID); [inversion R; subst; exact Z0|].
  destruct (twoway _).
  - destruct (negb _); [inversion R; subst; exact Z0|]. apply F in R. subst fs. exact Z0.
  - destruct (pull_receivers tests []) as [[sd|] rv] eqn:Pu; [|inversion R; subst; exact Z0].
    assert (O: all_open tests).
    { clear - Pu. revert sd rv Pu. generalize (@nil tsess). induction tests as [|t r IH]; intros l sd rv Pu; [constructor|]. cbn [pull_receivers] in Pu.
      destruct (t_end t) as [e|] eqn:Te; [|discriminate]. constructor; [congruence|].
      destruct (e_send e); [|eapply IH; eauto]. destruct (pull_receivers r l) as [[k|] v] eqn:Q; [|discriminate]. eapply IH; eauto. }
    rewrite (pull_spec tests [] O) in Pu. inversion Pu; subst sd rv. rewrite app_nil_r in R.
    destruct (read_stop_sessions D clean save _ _ (senders tests) (rev (receivers tests)) []) as [[[[[ok ts] rv2] bh] fl] c3] eqn:RS.
    destruct (sessions_files _ _ _ _ _ _ _ _ _ _ _ _ _ _ RS) as (left & P). 
    assert (P': Permutation (map t_sid (receivers tests)) (map s_sid fl ++ left)) by (rewrite <- P; rewrite map_rev; apply Permutation_rev).
    assert (G: fs = fl -> exists left0, Permutation (map t_sid (receivers tests)) (map s_sid fs ++ left0)) by (intros ->; eauto).
    destruct (negb ok); [inversion R; subst; eauto|]. destruct bh; [|inversion R; subst; eauto].
    apply G. clear - R.
    destruct (recv_blocks D c3 0 1) as [[| |] c4]; [|inversion R; auto|inversion R; auto].
    destruct (rhm_check H c4 0) as [[|] c5]; inversion R; auto.
Qed.
