(** Proofs about the state word of a control connection, over arbitrary histories of calls. *)
From Coq Require Import ZArith List Bool Lia ZifyBool ZifyNat Arith.
From Verif Require Import Base BaseLemmas Puts Time_Model Time_Proofs Sched_Model Wire_Model Wire_Spec Wire_Proofs Control_Model Control_Spec Control_Proofs.
Import ListNotations.
Open Scope Z_scope.
Ltac Zify.zify_post_hook ::= Z.div_mod_to_equations.

(** The functions of protocol.c, named, to speak about all of them at once *)
Inductive op :=
| OReadType                                        (* OWPReadRequestType *)
| OReadTest (server alloc slots : bool)            (* _OWPReadTestRequest *)
| OWriteAccept (a port : Z) (sid : option (list Z))
| OReadStart | OWriteStartAck (a : Z)
| OReadFetch | OWriteFetchAck (a fin next nsk nd : Z)
| OWriteTest (snd rcv : saddr) (cs cr za : bool) (sid : option (list Z)) (t : testspec)
| OReadAccept | OWriteStart | OReadStartAck
| OWriteFetch (b e : Z) (sid : list Z) | OReadFetchAck.

(** result code (request type, or severity) and the connection afterwards *)
Definition call (E D H : list Z -> list Z -> list Z) (o : op) (c : ctl) : Z * ctl :=
  match o with
  | OReadType => read_request_type D c
  | OReadTest sv al sl => let '(rc, _, _, c') := read_test_request D H c sv al sl in (rc, c')
  | OWriteAccept a port sid => write_accept E H c a port sid
  | OReadStart => read_start D H c
  | OWriteStartAck a => write_start_ack E H c a
  | OReadFetch => let '(rc, _, c') := read_fetch D H c in (rc, c')
  | OWriteFetchAck a fin next nsk nd => write_fetch_ack E H c a fin next nsk nd
  | OWriteTest snd rcv cs cr za sid t => write_test_request E H c snd rcv cs cr za sid t
  | OReadAccept => let '(rc, _, c') := read_accept D H c in (rc, c')
  | OWriteStart => write_start E H c
  | OReadStartAck => let '(rc, _, c') := read_start_ack D H c in (rc, c')
  | OWriteFetch b e sid => write_fetch E H c b e sid
  | OReadFetchAck => let '(rc, _, c') := read_fetch_ack D H c in (rc, c')
  end.

Section S.
Variable E D H : list Z -> list Z -> list Z.

Definition keeps (c c' : ctl) : Prop := st c' = st c /\ twoway c' = twoway c.

Lemma keeps_refl : forall c, keeps c c. Proof. unfold keeps; auto. Qed.
Lemma keeps_trans : forall a b c, keeps a b -> keeps b c -> keeps a c.
Proof. unfold keeps. intros a b c [] []; split; congruence. Qed.

Lemma write_raw_keeps : forall c bs r c', write_raw c bs = (r, c') -> keeps c c'.
Proof. intros c bs r c' Hw. unfold write_raw in Hw. destruct (io c) as [|[|]]; inversion Hw; subst; split; reflexivity. Qed.

Lemma read_raw_keeps : forall c o n r c', read_raw c o n = (r, c') -> keeps c c'.
Proof. intros c o n r c' Hw. unfold read_raw in Hw. destruct (io c) as [|[|]]; inversion Hw; subst; split; reflexivity. Qed.

Lemma send_keeps : forall c off nb r c', send_blocks E c off nb = (r, c') -> keeps c c'.
Proof.
  intros c off nb r c' Hs. unfold send_blocks in Hs. destruct (ciphers c).
  - destruct (cbc_enc E (key c) (wiv c) nb _). apply write_raw_keeps in Hs. exact Hs.
  - now apply write_raw_keeps in Hs.
Qed.

Lemma recv_keeps : forall c off nb r c', recv_blocks D c off nb = (r, c') -> keeps c c'.
Proof.
  intros c off nb r c' Hs. unfold recv_blocks in Hs. destruct (read_raw c off (16 * nb)) as [[| |] c1] eqn:R;
  apply read_raw_keeps in R; try (inversion Hs; subst; assumption).
  destruct (ciphers c1); [destruct (cbc_dec D (key c1) (riv c1) nb _)|]; inversion Hs; subst; exact R.
Qed.

Lemma shm_add_keeps : forall c o n, keeps c (shm_add c o n).
Proof. intros. unfold shm_add. destruct (ciphers c); split; reflexivity. Qed.
Lemma rhm_add_keeps : forall c o n, keeps c (rhm_add c o n).
Proof. intros. unfold rhm_add. destruct (ciphers c); split; reflexivity. Qed.
Lemma shm_digest_keeps : forall c o, keeps c (shm_digest H c o).
Proof. intros. unfold shm_digest. destruct (ciphers c); split; reflexivity. Qed.
Lemma rhm_check_keeps : forall c o b c', rhm_check H c o = (b, c') -> keeps c c'.
Proof. intros c o b c' Hc. unfold rhm_check in Hc. destruct (ciphers c); inversion Hc; subst; split; reflexivity. Qed.

Lemma emit_keeps : forall c m hb off nb r c',
  send_blocks E (shm_digest H (shm_add (set_msg c m) 0 hb) off) 0 nb = (r, c') -> keeps c c'.
Proof.
  intros c m hb off nb r c' Hs. apply send_keeps in Hs.
  eapply keeps_trans; [|exact Hs]. eapply keeps_trans; [|apply shm_digest_keeps]. eapply keeps_trans; [|apply shm_add_keeps].
  split; reflexivity.
Qed.

Lemma check_keeps : forall c hb off b c', rhm_check H (rhm_add c 0 hb) off = (b, c') -> keeps c c'.
Proof. intros c hb off b c' Hc. apply rhm_check_keeps in Hc. eapply keeps_trans; [|exact Hc]. apply rhm_add_keeps. Qed.

Definition keeps_or_dead (c c' : ctl) : Prop := (st c' = st c \/ st c' = 0) /\ twoway c' = twoway c.

Lemma write_slots_keeps : forall l c b c', write_slots E c l = (b, c') ->
  twoway c' = twoway c /\ (if b then st c' = st c else st c' = 0).
Proof.
  induction l; intros c b c' Hw; cbn [write_slots] in Hw.
  - inversion Hw; subst; auto.
  - destruct (encode_slot a) as [x|]; [|inversion Hw; subst; split; reflexivity].
    destruct (send_blocks E (shm_add (set_msg c (put 0 x (msg c))) 0 1) 0 1) as [r c1] eqn:S. apply send_keeps in S.
    assert (K: keeps c c1). { eapply keeps_trans; [|exact S]. eapply keeps_trans; [|apply shm_add_keeps]. split; reflexivity. }
    destruct K as [K1 K2].
    destruct r; try (inversion Hw; subst; cbn; split; [auto|reflexivity]).
    apply IHl in Hw. destruct Hw as [W1 W2]. split; [congruence|]. destruct b; congruence.
Qed.

Lemma read_slots_loop_keeps : forall n c keep r c', read_slots_loop D c n keep = (r, c') ->
  twoway c' = twoway c /\ (match r with Some _ => st c' = st c | None => st c' = 0 end).
Proof.
  induction n; intros c keep r c' Hw; cbn [read_slots_loop] in Hw.
  - inversion Hw; subst; auto.
  - destruct (recv_blocks D c 0 1) as [q c1] eqn:S. apply recv_keeps in S. destruct S as [S1 S2].
    destruct q; try (inversion Hw; subst; cbn; split; [auto|reflexivity]).
    pose proof (rhm_add_keeps c1 0 1) as [R1 R2].
    destruct keep.
    + destruct (decode_slot _); [|inversion Hw; subst; cbn; split; [congruence|reflexivity]].
      destruct (read_slots_loop D (rhm_add c1 0 1) n true) as [[l|] c2] eqn:L; inversion Hw; subst; apply IHn in L; destruct L; split; congruence.
    + apply IHn in Hw. destruct Hw. split; [congruence|]. destruct r; congruence.
Qed.

(** possible (result, state word) after a call, as a function of the state word before *)
Definition on (b w : Z) : bool := negb (Z.land b w =? 0).

Definition skel (tw : bool) (o : op) (w : Z) : list (Z * Z) :=
  let fail := [(ErrFATAL, w); (ErrFATAL, 0)] in
  match o with
  | OReadType =>
      if negb (on StRequest w) || on StReading w then [(ReqInvalid, w)] else
      [(ReqInvalid, 0); (ReqSockIntr, 0); (ReqSockClose, 0)] ++
      (if on StTest w then [(3, Z.lor w StStopSessions)] else
       [(1, Z.lor w StTestRequest); (2, Z.lor w StStartSessions); (4, Z.lor w StFetchSession); (5, Z.lor w StTestRequestTW)])
  | OReadTest sv al _ =>
      if negb (on (if tw then StTestRequestTW else StTestRequest) w) then [(ErrFATAL, w)] else
      let w1 := Z.lor (Z.ldiff w StTestRequest) StTestRequestSlots in
      let w2 := if tw then w1 else Z.ldiff w1 StTestRequestSlots in
      fail ++ (if al then [] else [(ErrWARNING, w1)]) ++ [(ErrFATAL, w2); (ErrOK, Z.lor w2 (if sv then StAcceptSession else StFetching))]
  | OWriteAccept _ _ _ | OReadAccept =>
      if negb (on StAcceptSession w) then [(ErrFATAL, w)] else fail ++ [(ErrOK, Z.ldiff w StAcceptSession)]
  | OReadStart =>
      if negb (on StStartSessions w) then [(ErrFATAL, w)] else
      fail ++ [(ErrOK, Z.lor (Z.lor (Z.ldiff w StStartSessions) StStartAck) StTest)]
  | OWriteStartAck a =>
      if negb (on StStartAck w) then [(ErrFATAL, w)] else
      fail ++ [(ErrOK, if a =? CNTRL_ACCEPT then Z.ldiff w StStartAck else Z.ldiff (Z.ldiff w StStartAck) StTest)]
  | OReadStartAck =>
      if negb (on StStartAck w) then [(ErrFATAL, w)] else
      fail ++ [(ErrOK, Z.ldiff w StStartAck); (ErrOK, Z.lor (Z.ldiff (Z.ldiff w StStartAck) StTest) StRequest)]
  | OReadFetch =>
      if negb (on StFetchSession w) then [(ErrFATAL, w)] else
      fail ++ [(ErrOK, Z.lor (Z.ldiff (Z.ldiff w StFetchSession) StRequest) (Z.lor StFetchAck StFetching))]
  | OWriteFetchAck a _ _ _ _ =>
      if negb (on StFetchAck w) then [(ErrFATAL, w)] else
      fail ++ [(ErrOK, if a =? CNTRL_ACCEPT then Z.ldiff w StFetchAck else Z.lor (Z.ldiff (Z.ldiff w StFetchAck) StFetching) StRequest)]
  | OReadFetchAck =>
      if negb (on StFetchAck w) then [(ErrFATAL, w)] else
      let w1 := Z.ldiff (Z.ldiff w StFetchAck) StFetchSession in
      fail ++ [(ErrOK, Z.lor w1 (if tw then StTestRequestTW else StTestRequest)); (ErrOK, Z.lor w1 StRequest)]
  | OWriteTest _ _ _ _ _ _ _ =>
      if negb (on StRequest w) || on StPending w then [(ErrFATAL, w)] else fail ++ [(ErrOK, Z.lor w StAcceptSession)]
  | OWriteStart =>
      if negb (on StRequest w) || on StPending w then [(ErrFATAL, w)] else fail ++ [(ErrOK, Z.lor (Z.lor w StStartAck) StTest)]
  | OWriteFetch _ _ _ =>
      if negb (on StRequest w) || on StTest w then [(ErrFATAL, w)] else
      fail ++ [(ErrOK, Z.ldiff (Z.lor w (Z.lor StFetchAck StFetchSession)) StRequest)]
  end.

Ltac kp := repeat match goal with
  | h : send_blocks E (shm_digest H (shm_add (set_msg _ _) 0 _) _) 0 _ = _ |- _ => apply emit_keeps in h; destruct h
  | h : send_blocks E _ _ _ = _ |- _ => apply send_keeps in h; destruct h
  | h : recv_blocks D _ _ _ = _ |- _ => apply recv_keeps in h; destruct h
  | h : rhm_check H (rhm_add _ 0 _) _ = _ |- _ => apply check_keeps in h; destruct h
  | h : rhm_check H _ _ = _ |- _ => apply rhm_check_keeps in h; destruct h
  end.
Ltac pick := first [left; solve [reflexivity | congruence] | right; pick].
Ltac fin := cbn [fst snd]; unfold invalid, or_st, clr_st, StInvalid; cbn [set_st st twoway];
  split; [cbn [app In]; pick|congruence].

Lemma skel_sound : forall o c,
  In (fst (call E D H o c), st (snd (call E D H o c))) (skel (twoway c) o (st c)) /\
  twoway (snd (call E D H o c)) = twoway c.
Proof.
  intros o c. destruct o; cbn [call skel]; unfold on.
  - (* OReadType *)
    unfold read_request_type, is_st.
    destruct (negb (negb (Z.land StRequest (st c) =? 0)) || negb (Z.land StReading (st c) =? 0)); [cbn; auto|].
    destruct (recv_blocks D c 0 1) as [r c1] eqn:R. kp.
    destruct r as [| |[]]; try fin.
    rewrite H0.
    destruct (negb (Z.land StTest (st c) =? 0)) eqn:T; cbn [andb negb orb].
    + destruct (Z.eqb_spec (byte 0 (msg c1)) 3) as [e|e]; cbn [negb orb]; [|fin]. rewrite e. cbn. split; [|auto]. rewrite H0. tauto.
    + destruct (Z.eqb_spec (byte 0 (msg c1)) 3); cbn [negb orb]; [fin|].
      destruct (Z.eqb_spec (byte 0 (msg c1)) 1) as [e1|_]; [rewrite e1; fin|].
      destruct (Z.eqb_spec (byte 0 (msg c1)) 2) as [e1|_]; [rewrite e1; fin|].
      destruct (Z.eqb_spec (byte 0 (msg c1)) 4) as [e1|_]; [rewrite e1; fin|].
      destruct (Z.eqb_spec (byte 0 (msg c1)) 5) as [e1|_]; [rewrite e1; fin|]. fin.
  - (* OReadTest *)
    unfold read_test_request, is_st.
    destruct (negb (negb (Z.land (if twoway c then StTestRequestTW else StTestRequest) (st c) =? 0))); [cbn; auto|].
    destruct (if server then (IODone, c) else recv_blocks D c 0 1) as [r0 c0] eqn:R0.
    assert (K0: keeps c c0). { destruct server; [inversion R0; apply keeps_refl|eapply recv_keeps; eauto]. } destruct K0 as [K01 K02]. clear R0.
    destruct r0; try fin.
    destruct (recv_blocks D c0 16 6) as [r1 c1] eqn:R1. kp. destruct r1; try fin.
    destruct (rhm_check H (rhm_add c1 0 6) 96) as [b c2] eqn:R2. kp. destruct b; cbn [negb]; [|fin].
    destruct (decode_preamble server (sub 0 112 (msg c2)) 112 (twoway c2) 128) as [p| |]; try fin.
    destruct (ll_scope_ok (remote c2) (p_sender p)); cbn [negb]; [|fin].
    destruct (ll_scope_ok (remote c2) (p_receiver p)); cbn [negb]; [|fin].
    set (c3 := or_st (clr_st c2 StTestRequest) StTestRequestSlots).
    assert (S3: st c3 = Z.lor (Z.ldiff (st c) StTestRequest) StTestRequestSlots) by (unfold c3, or_st, clr_st; cbn [set_st st]; congruence).
    assert (T3: twoway c3 = twoway c) by (unfold c3, or_st, clr_st; cbn [set_st twoway]; congruence).
    clearbody c3. destruct alloc; cbn [negb]; [|fin]. rewrite T3.
    destruct (twoway c) eqn:TW.
    { unfold or_st. cbn [fst snd set_st st twoway]. rewrite S3. split; [cbn; tauto|auto]. }
    destruct (read_slots D H c3 (p_nslots p) (slots || (p_nslots p <=? 10))) as [r4 c4] eqn:R4.
    assert (K4: twoway c4 = false /\ match r4 with Some _ => st c4 = Z.ldiff (st c3) StTestRequestSlots | None => True end).
    { unfold read_slots in R4. destruct (negb (is_st StTestRequestSlots c3)); [inversion R4; subst; auto|].
      destruct (read_slots_loop D c3 (Z.to_nat (p_nslots p)) _) as [[l|] c5] eqn:R5; apply read_slots_loop_keeps in R5; destruct R5 as [R51 R52].
      2:{ inversion R4; subst. split; [congruence|auto]. }
      destruct (recv_blocks D c5 0 1) as [r6 c6] eqn:R6. kp. destruct r6; try (inversion R4; subst; cbn; split; [congruence|auto]).
      destruct (rhm_check H c6 0) as [b7 c7] eqn:R7. kp. destruct b7; inversion R4; subst; unfold clr_st, invalid; cbn [set_st twoway st]; split; auto; congruence. }
    destruct K4 as [K41 K42]. destruct r4 as [l|]; [|fin].
    destruct (slots || (p_nslots p <=? 10)); unfold or_st; cbn [fst snd set_st st twoway]; rewrite K42, S3; (split; [cbn; tauto|congruence]).
  - unfold write_accept, is_st. destruct (negb (negb (Z.land StAcceptSession (st c) =? 0))); [cbn; auto|].
    destruct (send_blocks E _ 0 3) as [r c1] eqn:R. kp. destruct r; fin.
  - unfold read_start, is_st. destruct (negb (negb (Z.land StStartSessions (st c) =? 0))); [cbn; auto|].
    destruct (recv_blocks D c 16 1) as [r c1] eqn:R. kp. destruct r as [| |[]]; try fin.
    destruct (rhm_check H (rhm_add c1 0 1) 16) as [b c2] eqn:R2. kp. destruct b; cbn [negb]; [|fin].
    destruct (byte 0 (msg c2) =? 2); cbn [negb]; fin.
  - unfold write_start_ack, is_st. destruct (negb (negb (Z.land StStartAck (st c) =? 0))); [cbn; auto|].
    destruct (send_blocks E _ 0 2) as [r c1] eqn:R. kp. destruct r as [| |[]]; try fin. destruct (a =? CNTRL_ACCEPT); fin.
  - unfold read_fetch, is_st. destruct (negb (negb (Z.land StFetchSession (st c) =? 0))); [cbn; auto|].
    destruct (twoway c) eqn:TW; [cbn; auto|].
    destruct (recv_blocks D c 16 2) as [r c1] eqn:R. kp. destruct r as [| |[]]; try fin.
    destruct (rhm_check H (rhm_add c1 0 2) 32) as [b c2] eqn:R2. kp. destruct b; cbn [negb]; [|fin].
    destruct (byte 0 (msg c2) =? 4); cbn [negb]; fin.
  - unfold write_fetch_ack, is_st. destruct (negb (negb (Z.land StFetchAck (st c) =? 0))); [cbn; auto|].
    destruct (send_blocks E _ 0 2) as [r c1] eqn:R. kp. destruct r as [| |[]]; try fin. destruct (a =? CNTRL_ACCEPT); fin.
  - unfold write_test_request, is_st. destruct (negb (negb (Z.land StRequest (st c) =? 0)) || negb (Z.land StPending (st c) =? 0)); [cbn; auto|].
    destruct (encode_preamble _ _ _ _ _ _ _ _ _ _) as [m|]; [|fin].
    destruct (send_blocks E _ 0 7) as [r c1] eqn:R. kp. destruct r as [| |[]]; try fin.
    destruct (twoway c1) eqn:TW; [fin|].
    destruct (write_slots E c1 _) as [b c2] eqn:W. apply write_slots_keeps in W. destruct W as [W1 W2]. destruct b; [|fin].
    destruct (send_blocks E (shm_digest H c2 0) 0 1) as [r2 c3] eqn:R2. kp.
    pose proof (shm_digest_keeps c2 0) as [Q1 Q2]. destruct r2; fin.
  - unfold read_accept, is_st. destruct (negb (negb (Z.land StAcceptSession (st c) =? 0))); [cbn; auto|].
    destruct (recv_blocks D c 0 3) as [r c1] eqn:R. kp. destruct r as [| |[]]; try fin.
    destruct (rhm_check H (rhm_add c1 0 2) 32) as [b c2] eqn:R2. kp. destruct b; cbn [negb]; [|fin].
    destruct (get_accept (byte 0 (msg c2)) =? CNTRL_INVALID); fin.
  - unfold write_start, is_st. destruct (negb (negb (Z.land StRequest (st c) =? 0)) || negb (Z.land StPending (st c) =? 0)); [cbn; auto|].
    destruct (send_blocks E _ 0 2) as [r c1] eqn:R. kp. destruct r as [| |[]]; fin.
  - unfold read_start_ack, is_st. destruct (negb (negb (Z.land StStartAck (st c) =? 0))); [cbn; auto|].
    destruct (recv_blocks D c 0 2) as [r c1] eqn:R. kp. destruct r as [| |[]]; try fin.
    destruct (rhm_check H (rhm_add c1 0 1) 16) as [b c2] eqn:R2. kp. destruct b; cbn [negb]; [|fin].
    destruct (get_accept (byte 0 (msg c2)) =? CNTRL_INVALID); [fin|].
    destruct (get_accept (byte 0 (msg c2)) =? CNTRL_ACCEPT); fin.
  - unfold write_fetch, is_st. destruct (negb (negb (Z.land StRequest (st c) =? 0)) || negb (Z.land StTest (st c) =? 0)); [cbn; auto|].
    destruct (twoway c) eqn:TW; [cbn; auto|].
    destruct (send_blocks E _ 0 3) as [r c1] eqn:R. kp. destruct r as [| |[]]; fin.
  - unfold read_fetch_ack, is_st. destruct (negb (negb (Z.land StFetchAck (st c) =? 0))); [cbn; auto|].
    destruct (recv_blocks D c 0 2) as [r c1] eqn:R. kp. destruct r as [| |[]]; try fin.
    destruct (rhm_check H (rhm_add c1 0 1) 16) as [b c2] eqn:R2. kp. destruct b; cbn [negb]; [|fin].
    destruct (get_accept (byte 0 (msg c2)) =? CNTRL_INVALID); [fin|].
    replace (twoway (clr_st (clr_st c2 StFetchAck) StFetchSession)) with (twoway c) by (unfold clr_st; cbn [set_st twoway]; congruence).
    destruct (get_accept (byte 0 (msg c2)) =? CNTRL_ACCEPT); fin.
Qed.

End S.
