(** Proofs about message boundaries (C61): what reading a request takes from the input. *)
From Coq Require Import ZArith List Bool Lia ZifyBool ZifyNat.
From Verif Require Import Base BaseLemmas Time_Model Sched_Model Wire_Model Wire_Spec Wire_Proofs Puts Control_Model Control_Spec Control_Proofs
  Control_Integrity Stop_Model Setup_Model Setup_Spec Server_Model Server_Spec.
Import ListNotations.
Open Scope Z_scope.
Ltac Zify.zify_post_hook ::= Z.div_mod_to_equations.

Section S.
Variable E D H : list Z -> list Z -> list Z.
Hypothesis BD : blocks16 D.

Notation plain := (plain D) (only parsing).

(** what reading leaves alone *)
Definition kept (c c' : ctl) : Prop :=
  outp c' = outp c /\ wiv c' = wiv c /\ shm c' = shm c /\ key c' = key c /\ hkey c' = hkey c /\ mode c' = mode c /\ twoway c' = twoway c /\ (quiet c -> quiet c').
Lemma kept_refl : forall c, kept c c. Proof. repeat split; auto. Qed.
Lemma kept_trans : forall a b c, kept a b -> kept b c -> kept a c.
Proof. unfold kept. intuition congruence. Qed.
Lemma recv_kept : forall c off n, kept c (snd (recv_blocks D c off n)).
Proof.
  intros c off n. unfold recv_blocks.
  assert (R: kept c (snd (read_raw c off (16 * n)))).
  { unfold read_raw, kept, quiet. destruct (io c) as [|[|? ?] r] eqn:IO; try destruct (_ <? _)%nat; cbn; rewrite ?IO; repeat split; intros Q; inversion Q; auto. }
  destruct (read_raw c off (16 * n)) as [[| |?] c1]; cbn [snd] in *; auto. destruct (ciphers c1); [|exact R]. destruct (cbc_dec _ _ _ _ _). exact R.
Qed.
Lemma recv_kept' : forall c c1 off n r c2, kept c c1 -> recv_blocks D c1 off n = (r, c2) -> kept c c2.
Proof. intros c c1 off n r c2 K R. pose proof (recv_kept c1 off n) as X. rewrite R in X. eapply kept_trans; eauto. Qed.
Lemma kept_rhm : forall c c1 off n, kept c c1 -> kept c (rhm_add c1 off n).
Proof. intros c c1 off n K. unfold rhm_add. destruct (ciphers c1); exact K. Qed.
Lemma kept_check : forall c c1 off b c2, kept c c1 -> rhm_check H c1 off = (b, c2) -> kept c c2.
Proof. intros c c1 off b c2 K R. unfold rhm_check in R. destruct (ciphers c1); inversion R; subst; exact K. Qed.
Lemma loop_kept : forall n c c1 kp r c2, kept c c1 -> read_slots_loop D c1 n kp = (r, c2) -> kept c c2.
Proof.
  induction n as [|n IH]; intros c c1 kp r c2 K X; cbn [read_slots_loop] in X; [inversion X; subst; exact K|].
  destruct (recv_blocks D c1 0 1) as [[| |?] c3] eqn:RB; pose proof (recv_kept' _ _ _ _ _ _ K RB) as K1; try (inversion X; subst; exact K1).
  apply (kept_rhm _ _ 0 1) in K1. destruct kp.
  - destruct (decode_slot _); [|inversion X; subst; exact K1]. destruct (read_slots_loop D (rhm_add c3 0 1) n true) as [[l'|] c4] eqn:RS;
      inversion X; subst; eapply IH; eauto.
  - eapply IH; eauto.
Qed.
Lemma slots_kept : forall c c1 n kp r c2, kept c c1 -> read_slots D H c1 n kp = (r, c2) -> kept c c2.
Proof.
  intros c c1 n kp r c2 K X. unfold read_slots in X. destruct (negb _); [inversion X; subst; exact K|].
  destruct (read_slots_loop D c1 (Z.to_nat n) kp) as [[l'|] c3] eqn:RS; pose proof (loop_kept _ _ _ _ _ _ K RS) as K1; [|inversion X; subst; exact K1].
  destruct (recv_blocks D c3 0 1) as [[| |?] c4] eqn:RB; pose proof (recv_kept' _ _ _ _ _ _ K1 RB) as K2; try (inversion X; subst; exact K2).
  destruct (rhm_check H c4 0) as [[|] c5] eqn:CH; pose proof (kept_check _ _ _ _ _ K2 CH) as K3; inversion X; subst; exact K3.
Qed.
Lemma type_kept : forall c t c1, read_request_type D c = (t, c1) -> kept c c1.
Proof.
  intros c t c1 R. unfold read_request_type in R. destruct (_ || _); [inversion R; subst; apply kept_refl|].
  destruct (recv_blocks D c 0 1) as [r c0] eqn:RB. pose proof (recv_kept' _ _ _ _ _ _ (kept_refl c) RB) as K.
  destruct r as [| |[]]; try (inversion R; subst; exact K). cbv zeta in R.
  repeat match type of R with (if ?x then _ else _) = _ => destruct x end; inversion R; subst; exact K.
Qed.
Lemma test_kept : forall c c1 al sl rc q a c2, kept c c1 -> read_test_request D H c1 true al sl = (rc, q, a, c2) -> kept c c2.
Proof.
  intros c c1 al sl rc q a c2 K R. unfold read_test_request in R. destruct (negb _); [inversion R; subst; exact K|].
  destruct (recv_blocks D c1 16 6) as [[| |?] c3] eqn:RB; pose proof (recv_kept' _ _ _ _ _ _ K RB) as K1; try (inversion R; subst; exact K1).
  apply (kept_rhm _ _ 0 6) in K1. destruct (rhm_check H (rhm_add c3 0 6) 96) as [ok c4] eqn:CH. pose proof (kept_check _ _ _ _ _ K1 CH) as K2.
  destruct ok; cbn [negb] in R; [|inversion R; subst; exact K2].
  destruct (decode_preamble _ _ _ _ _) as [p| |]; [|inversion R; subst; exact K2|inversion R; subst; exact K2].
  destruct (negb _); [inversion R; subst; exact K2|]. destruct (negb _); [inversion R; subst; exact K2|].
  cbv zeta in R. destruct (negb al); [inversion R; subst; exact K2|].
  set (c5 := or_st (clr_st c4 StTestRequest) StTestRequestSlots) in *. assert (K3: kept c c5) by exact K2. clearbody c5.
  destruct (twoway c5); [inversion R; subst; exact K3|].
  destruct (read_slots D H c5 (p_nslots p) (sl || (p_nslots p <=? 10))) as [[l|] c6] eqn:RS; pose proof (slots_kept _ _ _ _ _ _ K3 RS) as K4;
    [|inversion R; subst; exact K4].
  clear RS. destruct (sl || (p_nslots p <=? 10)); inversion R; subst; exact K4.
Qed.

(** [n] blocks taken from the input and nothing written *)
Definition ate (s s1 : ctl) (n : nat) : Prop :=
  inp s1 = skipn (16 * n) (inp s) /\ wf s1 /\ mode s1 = mode s /\ twoway s1 = twoway s.

Lemma ate_trans : forall a b c n m, ate a b n -> ate b c m -> ate a c (n + m).
Proof.
  unfold ate. intros a b c n m (A1 & A3 & A4 & A5) (B1 & B3 & B4 & B5). repeat match goal with |- _ /\ _ => split end; try congruence.
  - rewrite B1, A1, skipn_skipn. f_equal. lia.
Qed.
Lemma ate_refl : forall s, wf s -> ate s s 0.
Proof. intros s W. unfold ate. rewrite Nat.mul_0_r. auto. Qed.
Lemma ate_st : forall s s1 n x, ate s s1 n -> ate s (set_st s1 x) n. Proof. intros s s1 n x A. exact A. Qed.
Lemma ate_rhm : forall s s1 n off nb, ate s s1 n -> ate s (rhm_add s1 off nb) n.
Proof. intros s s1 n off nb A. unfold rhm_add. destruct (ciphers s1); exact A. Qed.
Lemma ate_check : forall s s1 n off b s2, ate s s1 n -> rhm_check H s1 off = (b, s2) -> ate s s2 n.
Proof. intros s s1 n off b s2 A R. unfold rhm_check in R. destruct (ciphers s1); inversion R; subst; exact A. Qed.

Lemma recv_plain : forall s off nb s1, wf s -> (off + 16 * nb <= 400)%nat -> recv_blocks D s off nb = (IODone, s1) ->
  ate s s1 nb /\ sub off (16 * nb) (msg s1) = plain s nb /\ sub 0 off (msg s1) = sub 0 off (msg s) /\ st s1 = st s.
Proof using BD.
  intros s off nb s1 W O R. destruct (ciphers s) eqn:C.
  - destruct (recv_took D BD s s 0 off nb s1 W (took_refl D s W) C O R) as (T & I & F & _ & S & _). cbn [plus] in *.
    rewrite incoming_0 in I. cbn [app] in I. unfold plain. rewrite C, I.
    split; [|auto]. destruct T as (_ & T2 & _ & T4 & T5 & _ & _ & T6 & _). unfold ate. rewrite T2. auto.
  - unfold plain. rewrite C. unfold recv_blocks in R.
    assert (RR: exists sr, read_raw s off (16 * nb) = (IODone, sr) /\ (16 * nb <= length (inp s))%nat /\
       sr = set_msg (set_inp s (skipn (16 * nb) (inp s)) (tl (io s))) (put off (firstn (16 * nb) (inp s)) (msg s))).
    { unfold read_raw in *. destruct (io s) as [|[|i k] r] eqn:IO; [| |discriminate];
      (destruct (length (inp s) <? 16 * nb)%nat eqn:LL; [discriminate|]; eexists; split; [reflexivity|];
       split; [apply Nat.ltb_ge in LL; exact LL|reflexivity]). }
    destruct RR as (sr & RR & L & ->). rewrite RR in R.
    change (ciphers (set_msg (set_inp s (skipn (16 * nb) (inp s)) (tl (io s))) (put off (firstn (16 * nb) (inp s)) (msg s)))) with (ciphers s) in R.
    rewrite C in R. match type of R with (_, ?x) = (_, s1) => assert (E1 : s1 = x) by congruence end. subst s1. clear R. destruct W as (W1 & W2 & W3).
    assert (LF: length (firstn (16 * nb) (inp s)) = (16 * nb)%nat) by (rewrite firstn_length; lia).
    unfold ate, wf. cproj. rewrite put_length by (rewrite ?LF; lia). rewrite (sub_put_same off (16 * nb)) by (rewrite ?LF; lia). repeat match goal with |- _ /\ _ => split end; auto.
    unfold sub. cbn [skipn]. unfold put. rewrite firstn_app, firstn_firstn, firstn_length.
    replace (Nat.min off off) with off by lia. replace (off - Nat.min off (length (msg s)))%nat with 0%nat by lia. cbn [firstn]. apply app_nil_r.
Qed.

Lemma type_ate : forall s t s1, wf s -> read_request_type D s = (t, s1) -> 1 <= t <= 5 ->
  ate s s1 1 /\ sub 0 16 (msg s1) = plain s 1.
Proof using BD.
  intros s t s1 W R T. unfold read_request_type in R.
  destruct (negb (is_st StRequest s) || is_st StReading s). { inversion R; subst; unfold ReqInvalid in T; lia. }
  destruct (recv_blocks D s 0 1) as [r c] eqn:RB.
  destruct r as [| |[]]; try (inversion R; subst; unfold ReqSockIntr, ReqSockClose in T; lia).
  destruct (recv_plain s 0 1 c W ltac:(lia) RB) as (A & P & _). change (16 * 1)%nat with 16%nat in P.
  set (b := byte 0 (msg c)) in *. clearbody b.
  destruct ((is_st StTest c && negb (b =? 3)) || (negb (is_st StTest c) && (b =? 3))). { inversion R; subst; unfold ReqInvalid in T; lia. }
  assert (X: forall y, (t, s1) = (b, set_st c y) -> ate s s1 1 /\ sub 0 16 (msg s1) = plain s 1).
  { intros y Y. inversion Y; subst. split; [exact A|exact P]. }
  destruct (b =? 1). { eapply X. symmetry. exact R. }
  destruct (b =? 2). { eapply X. symmetry. exact R. }
  destruct (b =? 3). { eapply X. symmetry. exact R. }
  destruct (b =? 4). { eapply X. symmetry. exact R. }
  destruct (b =? 5). { eapply X. symmetry. exact R. }
  inversion R; subst; unfold ReqInvalid in T; lia.
Qed.

Lemma slots_ate : forall n s keep l s1, wf s -> read_slots_loop D s n keep = (Some l, s1) -> ate s s1 n.
Proof using BD.
  induction n as [|n IH]; intros s keep l s1 W R; cbn [read_slots_loop] in R.
  - inversion R; subst. apply ate_refl; auto.
  - destruct (recv_blocks D s 0 1) as [[| |?] c] eqn:RB; try discriminate.
    destruct (recv_plain s 0 1 c W ltac:(lia) RB) as (A & _).
    apply (ate_rhm _ _ _ 0 1) in A. assert (Wc: wf (rhm_add c 0 1)) by apply A.
    replace (S n) with (1 + n)%nat by lia. eapply ate_trans; [exact A|].
    destruct keep.
    + destruct (decode_slot _); [|discriminate]. destruct (read_slots_loop D (rhm_add c 0 1) n true) as [[l'|] c'] eqn:RS; [|discriminate].
      inversion R; subst. eapply IH; eauto.
    + eapply IH; eauto.
Qed.

Lemma preamble_slots : forall b m len tw sl p, decode_preamble b m len tw sl = PreOK p -> p_nslots p = be_dec (sub 4 4 m).
Proof.
  intros b m len tw sl p R. unfold decode_preamble in R.
  destruct (negb (len =? 112)); [discriminate|]. cbv zeta in R.
  destruct (negb (negb (byte 2 m =? 0)) && _ && _); [discriminate|]. destruct (tw && (_ || _)); [discriminate|]. destruct (tw && _); [discriminate|].
  destruct (_ =? 6); [destruct (sl <? 28); [discriminate|inversion R; reflexivity]|].
  destruct (_ =? 4); [destruct (sl <? 16); [discriminate|inversion R; reflexivity]|discriminate].
Qed.

Lemma read_slots_ate : forall s n keep l s1, wf s -> read_slots D H s n keep = (Some l, s1) -> ate s s1 (Z.to_nat n + 1).
Proof using BD.
  intros s n keep l s1 W R. unfold read_slots in R. destruct (negb (is_st StTestRequestSlots s)); [discriminate|].
  destruct (read_slots_loop D s (Z.to_nat n) keep) as [[l'|] c] eqn:RS; [|discriminate].
  pose proof (slots_ate _ _ _ _ _ W RS) as A. assert (Wc: wf c) by apply A.
  destruct (recv_blocks D c 0 1) as [[| |?] c1] eqn:RB; try discriminate.
  destruct (recv_plain c 0 1 c1 Wc ltac:(lia) RB) as (A1 & _).
  destruct (rhm_check H c1 0) as [[|] c2] eqn:CH; [|discriminate]. inversion R; subst. unfold clr_st. apply ate_st.
  eapply ate_trans; [exact A|]. eapply ate_check; eauto.
Qed.

(** a request that is understood has been read to its end; one that is not has not been answered *)
Lemma request_ate : forall s s1 al sl rc q a s2, wf s -> read_request_type D s = (if twoway s then 5 else 1, s1) ->
  read_test_request D H s1 true al sl = (rc, Some q, a, s2) ->
  ate s s2 (if twoway s then 7 else 8 + Z.to_nat (field (plain s 1) 4 4)) /\ a = CNTRL_ACCEPT /\ is_st StAcceptSession s2 = true.
Proof using BD.
  intros s s1 al sl rc q a s2 W RT R.
  destruct (type_ate _ _ _ W RT) as (A & P). { destruct (twoway s); lia. }
  assert (TW: twoway s1 = twoway s) by apply A. assert (W1: wf s1) by apply A.
  unfold read_test_request in R. rewrite TW in R.
  destruct (negb (is_st (if twoway s then StTestRequestTW else StTestRequest) s1)); [discriminate|].
  destruct (recv_blocks D s1 16 6) as [r c] eqn:RB. 
  destruct r as [| |?]; try discriminate.
  destruct (recv_plain s1 16 6 c W1 ltac:(lia) RB) as (A2 & _ & F & _).
  pose proof (ate_trans _ _ _ _ _ A A2) as A3. cbn [plus] in A3.
  apply (ate_rhm _ _ _ 0 6) in A3.
  destruct (rhm_check H (rhm_add c 0 6) 96) as [ok c1] eqn:CH.
  pose proof (ate_check _ _ _ _ _ _ A3 CH) as A4. apply check_msg in CH. destruct CH as (M1 & _). rewrite (proj1 (rhm_msg _ _ _)) in M1.
  destruct ok; cbn [negb] in R; [|discriminate].
  assert (T4: twoway c1 = twoway s) by apply A4. rewrite T4 in R.
  destruct (decode_preamble true (sub 0 112 (msg c1)) 112 (twoway s) 128) as [p| |] eqn:DP; try discriminate.
  pose proof (preamble_slots _ _ _ _ _ _ DP) as NS.
  destruct (negb (ll_scope_ok _ (p_sender p))); [discriminate|].
  destruct (negb (ll_scope_ok _ (p_receiver p))); [discriminate|].
  cbv zeta in R. destruct (negb al); [discriminate|].
  change (twoway (or_st (clr_st c1 StTestRequest) StTestRequestSlots)) with (twoway c1) in R. rewrite T4 in R.
  destruct (twoway s) eqn:TS.
  { inversion R; subst. split; [exact A4|]. split; [reflexivity|]. apply or_is. reflexivity. }
  set (c2 := or_st (clr_st c1 StTestRequest) StTestRequestSlots) in *.
  assert (A5: ate s c2 7) by exact A4. assert (W5: wf c2) by apply A5. clearbody c2.
  assert (N: p_nslots p = field (plain s 1) 4 4).
  { rewrite NS, sub_sub by lia. rewrite M1. change (0 + 4)%nat with 4%nat. apply (field_of H _ 4 4 16); [lia|]. rewrite F. exact P. }
  destruct (read_slots D H c2 (p_nslots p) (sl || (p_nslots p <=? 10))) as [[l|] c3] eqn:RS; [|discriminate].
  pose proof (read_slots_ate _ _ _ _ _ W5 RS) as A6. pose proof (ate_trans _ _ _ _ _ A5 A6) as A7.
  rewrite N in A7, R. replace (7 + (Z.to_nat (field (plain s 1) 4 4) + 1))%nat with (8 + Z.to_nat (field (plain s 1) 4 4))%nat in A7 by lia.
  clear RS. destruct (sl || (field (plain s 1) 4 4 <=? 10)); [|discriminate].
  inversion R; subst. split; [exact A7|]. split; [reflexivity|]. apply or_is. reflexivity.
Qed.

Lemma send_inp : forall c off n, inp (snd (send_blocks E c off n)) = inp c.
Proof.
  assert (WR: forall c bs, inp (snd (write_raw c bs)) = inp c) by (intros; unfold write_raw; destruct (io c) as [|[|? ?] ?]; reflexivity).
  intros. unfold send_blocks. destruct (ciphers c); [|apply WR]. destruct (cbc_enc _ _ _ _ _). rewrite WR. reflexivity.
Qed.
Lemma write_accept_inp : forall c a p sid, inp (snd (write_accept E H c a p sid)) = inp c.
Proof.
  intros. unfold write_accept. destruct (negb _); [reflexivity|]. cbv zeta.
  set (m := match sid with Some _ => _ | None => _ end). clearbody m.
  assert (X: inp (shm_digest H (shm_add (set_msg c m) 0 2) 32) = inp c).
  { unfold shm_digest, shm_add. destruct (ciphers (set_msg c m)); [|destruct (ciphers (set_msg c m)); reflexivity]. destruct (ciphers (set_shm _ _)); reflexivity. }
  rewrite <- X. pose proof (send_inp (shm_digest H (shm_add (set_msg c m) 0 2) 32) 0 3) as Y.
  destruct (send_blocks E (shm_digest H (shm_add (set_msg c m) 0 2) 32) 0 3) as [[| |?] c2]; exact Y.
Qed.
Lemma refuse_inp : forall c a e, inp (snd (refuse E H c a e)) = inp c.
Proof. intros. unfold refuse. destruct (_ <=? _); [apply write_accept_inp|reflexivity]. Qed.

(** a server that has written anything in reply to a request has read the whole request *)
Lemma answered_ate : forall c tests sess s1 w rc s', wf c -> twoway c = false -> read_request_type D c = (1, s1) ->
  process_test_request E D H (mkSrv s1 tests sess) w = (rc, s') -> outp (s_c s') <> outp c ->
  inp (s_c s') = skipn (16 * (8 + Z.to_nat (field (plain c 1) 4 4))) (inp c).
Proof using BD.
  intros c tests sess s1 w rc s' W TW RT P O. unfold process_test_request in P. cbn [s_c s_tests s_sessions] in P.
  destruct (read_test_request D H s1 true (w_alloc w) (w_slots w)) as [[[rc1 q] a] c2] eqn:R.
  assert (O2: outp c2 = outp c) by apply (test_kept _ _ _ _ _ _ _ _ (type_kept _ _ _ RT) R).
  destruct q as [q|]. 2:{ inversion P; subst. cbn [s_c] in O. congruence. }
  destruct (request_ate c s1 (w_alloc w) (w_slots w) rc1 q a c2 W) as ((I & _) & _); [rewrite TW; exact RT|exact R|]. rewrite TW in I. rewrite <- I.
  assert (RF: forall x e, (fst (refuse E H c2 x e), mkSrv (snd (refuse E H c2 x e)) tests sess) = (rc, s') -> inp (s_c s') = inp c2).
  { intros x e X. inversion X; subst. cbn [s_c]. apply refuse_inp. }
  destruct (negb (w_addrs w)); [eapply RF; eauto|].
  destruct (if q_conf_receiver q then w_sid w else Some (q_sid q)) as [sid|]; [|eapply RF; eauto].
  destruct (negb (w_sched w)); [eapply RF; eauto|].
  match type of P with match ?x with Some _ => _ | None => _ end = _ => destruct x as [[aa ee]|] eqn:P1 end; [eapply RF; eauto|].
  match type of P with match ?x with Some _ => _ | None => _ end = _ => destruct x as [[aa ee]|] eqn:P2 end; [eapply RF; eauto|].
  match type of P with match ?x with Some _ => _ | None => _ end = _ => destruct x as [[aa ee]|] eqn:P3 end; [eapply RF; eauto|].
  pose proof (write_accept_inp c2 CNTRL_ACCEPT (w_port w) (Some sid)) as WI.
  destruct (write_accept E H c2 CNTRL_ACCEPT (w_port w) (Some sid)) as [rc2 c3]. cbn [snd] in WI.
  destruct (rc2 <? ErrOK); inversion P; subst; exact WI.
Qed.

Lemma refused_none : forall c a e, is_st StAcceptSession c = false -> outp (snd (refuse E H c a e)) = outp c.
Proof. intros c a e S. unfold refuse. destruct (_ <=? _); [|reflexivity]. unfold write_accept. rewrite S. reflexivity. Qed.

Lemma or_no : forall c b x, Z.land b x = 0 -> is_st b (or_st c x) = is_st b c.
Proof. intros c b x X. unfold is_st, or_st. cproj. now rewrite Z.land_lor_distr_r, X, Z.lor_0_r. Qed.
Lemma clr_no : forall c b x, is_st b c = false -> is_st b (clr_st c x) = false.
Proof.
  intros c b x X. unfold is_st, clr_st in *. cproj. apply negb_false_iff, Z.eqb_eq in X. apply negb_false_iff, Z.eqb_eq.
  apply Z.bits_inj. intros n. rewrite Z.bits_0. rewrite Z.land_spec, Z.ldiff_spec.
  assert (Y: Z.testbit (Z.land b (st c)) n = false) by (rewrite X; apply Z.bits_0). rewrite Z.land_spec in Y.
  destruct (Z.testbit b n); cbn in *; [rewrite Y|]; reflexivity.
Qed.
Lemma recv_st : forall c off n r c', recv_blocks D c off n = (r, c') -> st c' = st c.
Proof.
  intros c off n r c' X. revert X. unfold recv_blocks, read_raw.
  destruct (io c) as [|[|? ?] ?]; try (destruct (_ <? _)%nat); try (intros X; inversion X; reflexivity);
    (destruct (ciphers _); [destruct (cbc_dec _ _ _ _ _)|]; intros X; inversion X; reflexivity).
Qed.
Lemma st_is : forall b c c', st c' = st c -> is_st b c' = is_st b c.
Proof. unfold is_st. intros b c c' ->. reflexivity. Qed.

(** nothing was read of a two-way request that leads to an answer *)
Lemma unread_none : forall c s1 al sl rc a c2, twoway c = true -> is_st StAcceptSession c = false -> read_request_type D c = (5, s1) -> twoway s1 = true ->
  read_test_request D H s1 true al sl = (rc, None, a, c2) -> is_st StAcceptSession c2 = false.
Proof.
  intros c s1 al sl rc a c2 TW S RT TW1 R.
  assert (S1: is_st StAcceptSession s1 = false).
  { unfold read_request_type in RT. destruct (negb (is_st StRequest c) || is_st StReading c); [inversion RT|].
    destruct (recv_blocks D c 0 1) as [r c0] eqn:RB. pose proof (recv_st _ _ _ _ _ RB) as SC. rewrite <- (st_is _ _ _ SC) in S.
    destruct r as [| |[]]; try (inversion RT; fail). cbv zeta in RT.
    destruct (_ || _); [inversion RT|].
    destruct (byte 0 (msg c0) =? 1) eqn:B1; [inversion RT; lia|]. destruct (byte 0 (msg c0) =? 2) eqn:B2; [inversion RT; lia|].
    destruct (byte 0 (msg c0) =? 3) eqn:B3; [inversion RT; lia|]. destruct (byte 0 (msg c0) =? 4) eqn:B4; [inversion RT; lia|].
    destruct (byte 0 (msg c0) =? 5); inversion RT; subst. rewrite or_no by reflexivity. exact S. }
  unfold read_test_request in R. rewrite TW1 in R.
  destruct (negb (is_st StTestRequestTW s1)); [inversion R; subst; exact S1|].
  destruct (recv_blocks D s1 16 6) as [r c0] eqn:RB. pose proof (recv_st _ _ _ _ _ RB) as SC. rewrite <- (st_is _ _ _ SC) in S1.
  destruct r as [| |?]; try (inversion R; subst; reflexivity).
  assert (TC: twoway c0 = true).
  { rewrite <- TW1. revert RB. unfold recv_blocks, read_raw.
    destruct (io s1) as [|[|? ?] ?]; try (destruct (_ <? _)%nat); try (intros X; inversion X; reflexivity);
    (destruct (ciphers _); [destruct (cbc_dec _ _ _ _ _)|]; intros X; inversion X; reflexivity). }
  destruct (rhm_check H (rhm_add c0 0 6) 96) as [ok c1] eqn:CH.
  assert (X: st c1 = st c0 /\ twoway c1 = twoway c0).
  { unfold rhm_check, rhm_add in CH. destruct (ciphers c0); destruct (ciphers _) in CH; inversion CH; subst; auto. }
  destruct X as (X1 & X2). rewrite <- (st_is _ _ _ X1) in S1. rewrite TC in X2.
  destruct ok; cbn [negb] in R; [|inversion R; subst; reflexivity]. rewrite X2 in R.
  destruct (decode_preamble _ _ _ _ _); [|inversion R; subst; exact S1|inversion R; subst; reflexivity].
  destruct (negb (ll_scope_ok _ (p_sender p))); [inversion R; subst; exact S1|].
  destruct (negb (ll_scope_ok _ (p_receiver p))); [inversion R; subst; exact S1|].
  cbv zeta in R. destruct (negb al).
  { inversion R; subst. rewrite or_no by reflexivity. apply clr_no. exact S1. }
  change (twoway (or_st (clr_st c1 StTestRequest) StTestRequestSlots)) with (twoway c1) in R. rewrite X2 in R. discriminate.
Qed.

Lemma answered_ate_tw : forall c tests sess s1 w rc s', wf c -> twoway c = true -> is_st StAcceptSession c = false -> read_request_type D c = (5, s1) ->
  process_test_request_tw E D H (mkSrv s1 tests sess) w = (rc, s') -> outp (s_c s') <> outp c ->
  inp (s_c s') = skipn 112 (inp c).
Proof using BD.
  intros c tests sess s1 w rc s' W TW S RT P O. unfold process_test_request_tw in P. cbn [s_c s_tests s_sessions] in P.
  assert (TW1: twoway s1 = true). { destruct (type_ate _ _ _ W RT ltac:(lia)) as (A & _). rewrite <- TW. apply A. }
  destruct (read_test_request D H s1 true (w_alloc w) (w_slots w)) as [[[rc1 q] a] c2] eqn:R.
  assert (O2: outp c2 = outp c) by apply (test_kept _ _ _ _ _ _ _ _ (type_kept _ _ _ RT) R).
  destruct q as [q|].
  2:{ exfalso. apply O. apply (f_equal snd) in P. cbn [snd] in P. rewrite <- P. cbn [s_c].
      rewrite refused_none; [exact O2|]. exact (unread_none _ _ _ _ _ _ _ TW S RT TW1 R). }
  destruct (request_ate c s1 (w_alloc w) (w_slots w) rc1 q a c2 W) as ((I & _) & _); [rewrite TW; exact RT|exact R|]. rewrite TW in I.
  change (16 * 7)%nat with 112%nat in I. rewrite <- I.
  assert (RF: forall x e, (fst (refuse E H c2 x e), mkSrv (snd (refuse E H c2 x e)) tests sess) = (rc, s') -> inp (s_c s') = inp c2).
  { intros x e X. inversion X; subst. cbn [s_c]. apply refuse_inp. }
  destruct (negb (w_addrs w)); [eapply RF; eauto|].
  destruct (w_sid w) as [sid|]; [|eapply RF; eauto].
  destruct (policy_step w a) as [[? ?]|]; [eapply RF; eauto|]. destruct (w_init w) as [[? ?]|]; [eapply RF; eauto|]. destruct (w_hook w) as [[? ?]|]; [eapply RF; eauto|].
  destruct (w_port w =? 0); [eapply RF; eauto|].
  pose proof (write_accept_inp c2 CNTRL_ACCEPT (w_port w) (Some sid)) as WI.
  destruct (write_accept E H c2 CNTRL_ACCEPT (w_port w) (Some sid)) as [rc2 c3]. cbn [snd] in WI.
  destruct (rc2 <? ErrOK); inversion P; subst; exact WI.
Qed.

Lemma accept_quiet : forall c a port sid, quiet c -> is_st StAcceptSession c = true ->
  exists c' o, write_accept E H c a port sid = (ErrOK, c') /\ sent c c' o.
Proof.
  intros c a port sid Q S. unfold write_accept. rewrite S. cbn [negb]. cbv zeta.
  set (m := match sid with Some _ => _ | None => _ end). clearbody m.
  set (c0 := shm_digest H (shm_add (set_msg c m) 0 2) 32).
  assert (X: io c0 = io c /\ outp c0 = outp c).
  { unfold c0, shm_digest, shm_add. destruct (ciphers (set_msg c m)); [|destruct (ciphers (set_msg c m)); split; reflexivity]. destruct (ciphers (set_shm _ _)); split; reflexivity. }
  destruct X as (X1 & X2). clearbody c0.
  assert (Y: exists c1 o, send_blocks E c0 0 3 = (IODone, c1) /\ outp c1 = outp c0 ++ o).
  { unfold send_blocks. destruct (ciphers c0).
    - destruct (cbc_enc E (key c0) (wiv c0) 3 (sub 0 (16 * 3) (msg c0))) as [ct iv].
      unfold write_raw. cbn [io set_wiv set_msg]. rewrite X1. unfold quiet in Q. destruct (io c) as [|[|? ?] r]; [eexists _, _; split; reflexivity|eexists _, _; split; reflexivity|].
      inversion Q; discriminate.
    - unfold write_raw. rewrite X1. unfold quiet in Q. destruct (io c) as [|[|? ?] r]; [eexists _, _; split; reflexivity|eexists _, _; split; reflexivity|].
      inversion Q; discriminate. }
  destruct Y as (c1 & o & Y1 & Y2). rewrite Y1. eexists _, o. split; [reflexivity|]. unfold sent. cbn. congruence.
Qed.

Lemma refuse_negative : forall c2 a e cl, block_cipher E D -> digest20 H -> wf c2 -> quiet c2 -> is_st StAcceptSession c2 = true ->
  wf cl -> quiet cl -> inp cl = [] -> linked c2 cl -> is_st StAcceptSession cl = true -> 1 <= a <= 5 -> ErrWARNING <= e ->
  exists o, outp (snd (refuse E H c2 a e)) = outp c2 ++ o /\
    exists cl', read_accept D H (feed cl o) = (ErrOK, (a, 0, zeros 16), cl').
Proof using.
  intros c2 a e cl BC HL W Q S Wl Ql IL L Sl A We. destruct (accept_quiet c2 a 0 None Q S) as (c3 & o & X & Y).
  exists o. unfold refuse. replace (ErrWARNING <=? e) with true by lia. cbn [snd]. rewrite X. cbn [snd]. split; [exact Y|].
  destruct (accept_roundtrip E D H BC HL c2 c3 (feed cl o) a 0 None o [] W) as (cl' & R & _); auto.
  - unfold accept_code. lia.
  - lia.
  - unfold feed. cproj. now rewrite IL, app_nil_r.
  - exists cl'. exact R.
Qed.

Lemma policy_negative : forall w a x e, negative_codes w -> policy_step w a = Some (x, e) -> ErrWARNING <= e -> x = CNTRL_REJECT.
Proof.
  intros w a x e (N & _) P L. unfold policy_step in P. destruct (w_policy w) as [ok err]. cbn [fst snd] in N. destruct ok; [discriminate|].
  specialize (N eq_refl). destruct (err <? ErrOK) eqn:X; inversion P; subst; [lia|reflexivity].
Qed.

Lemma refused_code : forall c2 tests sess s1 w rc s' rc1 q a, negative_codes w ->
  read_test_request D H s1 true (w_alloc w) (w_slots w) = (rc1, Some q, a, c2) ->
  process_test_request E D H (mkSrv s1 tests sess) w = (rc, s') -> ErrWARNING <= rc -> s_sessions s' = sess ->
  exists n, 1 <= n <= 5 /\ s_c s' = snd (refuse E H c2 n rc).
Proof using.
  intros c2 tests sess s1 w rc s' rc1 q a N R P L S. unfold process_test_request in P. cbn [s_c s_tests s_sessions] in P. rewrite R in P.
  assert (RF: forall x e, (ErrWARNING <= e -> 1 <= x <= 5) -> (fst (refuse E H c2 x e), mkSrv (snd (refuse E H c2 x e)) tests sess) = (rc, s') ->
     exists n, 1 <= n <= 5 /\ s_c s' = snd (refuse E H c2 n rc)).
  { intros x e X Y. assert (FE: fst (refuse E H c2 x e) = e) by (unfold refuse; destruct (_ <=? _); reflexivity).
    inversion Y as [[Y1 Y2]]. rewrite FE in *. subst e. exists x. split; [apply X; exact L|reflexivity]. }
  destruct (negb (w_addrs w)); [eapply RF; [|exact P]; unfold ErrWARNING, ErrFATAL; lia|].
  destruct (if q_conf_receiver q then w_sid w else Some (q_sid q)) as [sid|]; [|eapply RF; [|exact P]; unfold CNTRL_FAILURE; lia].
  destruct (negb (w_sched w)); [eapply RF; [|exact P]; unfold CNTRL_FAILURE; lia|].
  match type of P with match ?x with Some _ => _ | None => _ end = _ => destruct x as [[aa ee]|] eqn:P1 end.
  { eapply RF; [|exact P]. intros X. destruct (q_conf_receiver q); [|discriminate].
    destruct (q_conf_sender q); [inversion P1; unfold CNTRL_UNSUPPORTED; lia|].
    destruct (policy_step w a) as [[px pe]|] eqn:PS; [|exact (proj1 (proj2 N) _ _ P1)]. inversion P1; subst. rewrite (policy_negative _ _ _ _ N PS X). unfold CNTRL_REJECT. lia. }
  match type of P with match ?x with Some _ => _ | None => _ end = _ => destruct x as [[aa ee]|] eqn:P2 end.
  { eapply RF; [|exact P]. intros X. destruct (q_conf_sender q); [|discriminate].
    destruct (_ && _); [inversion P2; subst; unfold ErrWARNING, ErrFATAL in X; lia|].
    destruct (_ && _); [inversion P2; subst; unfold CNTRL_REJECT; lia|].
    destruct (policy_step w a) as [[px pe]|] eqn:PS; [inversion P2; subst; rewrite (policy_negative _ _ _ _ N PS X); unfold CNTRL_REJECT; lia|].
    destruct (w_init w) as [[ix ie]|] eqn:WI; [|exact (proj2 (proj2 N) _ _ P2)]. inversion P2; subst. exact (proj1 (proj2 N) _ _ WI). }
  match type of P with match ?x with Some _ => _ | None => _ end = _ => destruct x as [[aa ee]|] eqn:P3 end.
  { eapply RF; [|exact P]. intros X. destruct (q_conf_receiver q); [|discriminate]. exact (proj2 (proj2 N) _ _ P3). }
  destruct (write_accept E H c2 CNTRL_ACCEPT (w_port w) (Some sid)) as [rc2 c3] eqn:WA.
  assert (RC: rc2 = ErrOK \/ rc2 = ErrFATAL).
  { clear -WA. unfold write_accept in WA. destruct (negb (is_st StAcceptSession c2)); [right; congruence|]. cbv zeta in WA. match type of WA with context [send_blocks E ?x 0 3] => destruct (send_blocks E x 0 3) as [[| |?] ?] end; [left|right|right]; congruence. }
  destruct (rc2 <? ErrOK) eqn:X.
  - inversion P; subst. unfold ErrOK, ErrFATAL, ErrWARNING in *. lia.
  - exfalso. apply (f_equal (fun x => s_sessions (snd x))) in P. cbn [snd s_sessions] in P. rewrite S in P. apply (f_equal (@length _)) in P. cbn [length] in P. lia.
Qed.

Lemma refused_code_tw : forall c2 tests sess s1 w rc s' rc1 q a, negative_codes w ->
  read_test_request D H s1 true (w_alloc w) (w_slots w) = (rc1, Some q, a, c2) ->
  process_test_request_tw E D H (mkSrv s1 tests sess) w = (rc, s') -> ErrWARNING <= rc -> s_sessions s' = sess ->
  exists n, 1 <= n <= 5 /\ s_c s' = snd (refuse E H c2 n rc).
Proof using.
  intros c2 tests sess s1 w rc s' rc1 q a N R P L S. unfold process_test_request_tw in P. cbn [s_c s_tests s_sessions] in P. rewrite R in P.
  assert (RF: forall x e, (ErrWARNING <= e -> 1 <= x <= 5) -> (fst (refuse E H c2 x e), mkSrv (snd (refuse E H c2 x e)) tests sess) = (rc, s') ->
     exists n, 1 <= n <= 5 /\ s_c s' = snd (refuse E H c2 n rc)).
  { intros x e X Y. assert (FE: fst (refuse E H c2 x e) = e) by (unfold refuse; destruct (_ <=? _); reflexivity).
    inversion Y as [[Y1 Y2]]. rewrite FE in *. subst e. exists x. split; [apply X; exact L|reflexivity]. }
  destruct (negb (w_addrs w)); [eapply RF; [|exact P]; unfold ErrWARNING, ErrFATAL; lia|].
  destruct (w_sid w) as [sid|]; [|eapply RF; [|exact P]; unfold CNTRL_FAILURE; lia].
  destruct (policy_step w a) as [[px pe]|] eqn:PS; [eapply RF; [|exact P]; intros X; rewrite (policy_negative _ _ _ _ N PS X); unfold CNTRL_REJECT; lia|].
  destruct (w_init w) as [[ix ie]|] eqn:WI; [eapply RF; [|exact P]; intros X; exact (proj1 (proj2 N) _ _ WI)|].
  destruct (w_hook w) as [[ix ie]|] eqn:WH; [eapply RF; [|exact P]; intros X; exact (proj2 (proj2 N) _ _ WH)|].
  destruct (w_port w =? 0); [eapply RF; [|exact P]; unfold CNTRL_FAILURE; lia|].
  destruct (write_accept E H c2 CNTRL_ACCEPT (w_port w) (Some sid)) as [rc2 c3] eqn:WA.
  assert (RC: rc2 = ErrOK \/ rc2 = ErrFATAL).
  { clear -WA. unfold write_accept in WA. destruct (negb (is_st StAcceptSession c2)); [right; congruence|]. cbv zeta in WA. match type of WA with context [send_blocks E ?x 0 3] => destruct (send_blocks E x 0 3) as [[| |?] ?] end; [left|right|right]; congruence. }
  destruct (rc2 <? ErrOK) eqn:X.
  - inversion P; subst. unfold ErrOK, ErrFATAL, ErrWARNING in *. lia.
  - exfalso. apply (f_equal (fun x => s_sessions (snd x))) in P. cbn [snd s_sessions] in P. rewrite S in P. apply (f_equal (@length _)) in P. cbn [length] in P. lia.
Qed.

Lemma negative_answer : forall c cl tests sess s1 w rc s' rc1 q a c2, block_cipher E D -> digest20 H ->
  wf c -> quiet c -> wf cl -> quiet cl -> inp cl = [] -> linked c cl -> is_st StAcceptSession cl = true -> negative_codes w ->
  read_request_type D c = (if twoway c then 5 else 1, s1) ->
  read_test_request D H s1 true (w_alloc w) (w_slots w) = (rc1, Some q, a, c2) ->
  (if twoway c then process_test_request_tw else process_test_request) E D H (mkSrv s1 tests sess) w = (rc, s') ->
  ErrWARNING <= rc -> s_sessions s' = sess ->
  exists o n, 1 <= n <= 5 /\ outp (s_c s') = outp c ++ o /\
    exists cl', read_accept D H (feed cl o) = (ErrOK, (n, 0, zeros 16), cl').
Proof using BD.
  intros c cl tests sess s1 w rc s' rc1 q a c2 BC HL W Q Wl Ql IL LK Sl N RT R P L S.
  destruct (request_ate _ _ _ _ _ _ _ _ W RT R) as ((I & W2 & _) & _ & S2).
  pose proof (test_kept _ _ _ _ _ _ _ _ (type_kept _ _ _ RT) R) as (K1 & K2 & K3 & K4 & K5 & K6 & K7 & K8).
  assert (X: exists n, 1 <= n <= 5 /\ s_c s' = snd (refuse E H c2 n rc)).
  { destruct (twoway c); [eapply refused_code_tw; eauto|eapply refused_code; eauto]. }
  destruct X as (n & Nn & X).
  assert (LK2: linked c2 cl) by (unfold linked in *; intuition congruence).
  destruct (refuse_negative c2 n rc cl BC HL W2 (K8 Q) S2 Wl Ql IL LK2 Sl Nn L) as (o & O & RD).
  exists o, n. split; [exact Nn|]. split; [rewrite X, O, K1; reflexivity|exact RD].
Qed.
End S.
