(** Proofs about histories of server-side calls. *)
From Coq Require Import ZArith List Bool Lia ZifyBool ZifyNat Arith.
From Verif Require Import Base BaseLemmas Time_Model Sched_Model Wire_Model Control_Model Stop_Model Server_Model Server_Spec Control_State.
Import ListNotations.
Open Scope Z_scope.
Ltac Zify.zify_post_hook ::= Z.div_mod_to_equations.

Section S.
Variable E D H : list Z -> list Z -> list Z.

(** ** The state word through the stop exchange *)

Lemma send_sid_keeps : forall c sid r x c', send_sid E c sid = (r, x, c') -> keeps c c'.
Proof.
  intros c sid r x c' Hs. unfold send_sid in Hs. destruct (ciphers c).
  - destruct (cbc_enc E (key c) (wiv c) 1 sid) as [ct iv]. destruct (write_raw (set_wiv c iv) ct) as [q c1] eqn:W.
    apply write_raw_keeps in W. inversion Hs; subst. exact W.
  - destruct (write_raw c sid) as [q c1] eqn:W. apply write_raw_keeps in W. inversion Hs; subst. exact W.
Qed.

Lemma write_skip_blocks_keeps : forall n c f r c', write_skip_blocks E c n f = (r, c') ->
  twoway c' = twoway c /\ (match r with Some _ => st c' = st c | None => True end).
Proof.
  induction n; intros c f r c' Hw; cbn [write_skip_blocks] in Hw; [inversion Hw; subst; auto|].
  destruct (length f <? 16)%nat; [inversion Hw; subst; cbn; auto|].
  destruct (send_blocks E (shm_add (set_msg c (put 0 (firstn 16 f) (msg c))) 0 1) 0 1) as [q c1] eqn:S. apply send_keeps in S.
  assert (K: keeps c c1). { eapply keeps_trans; [|exact S]. eapply keeps_trans; [|apply shm_add_keeps]. split; reflexivity. }
  destruct K as [K1 K2].
  destruct q; try (inversion Hw; subst; cbn; split; [auto|exact I]).
  apply IHn in Hw. destruct Hw as [W1 W2]. split; [congruence|]. destruct r; congruence.
Qed.

Lemma write_skips_keeps : forall c n f b c', write_skips E c n f = (b, c') ->
  twoway c' = twoway c /\ (b = true -> st c' = st c).
Proof.
  intros c n f b c' Hw. unfold write_skips in Hw.
  destruct (n <? 0); [inversion Hw; subst; cbn; split; [auto|discriminate]|].
  destruct (write_skip_blocks E c (Z.to_nat (n / 16)) f) as [[rest|] c1] eqn:W; apply write_skip_blocks_keeps in W; destruct W as [W1 W2];
  [|inversion Hw; subst; split; [auto|discriminate]].
  destruct (n mod 16 =? 8).
  - destruct (length rest <? 8)%nat; [inversion Hw; subst; cbn; split; [auto|discriminate]|].
    destruct (send_blocks E _ 0 1) as [q c2] eqn:S in Hw. apply send_keeps in S.
    match type of S with keeps (shm_add ?x ?y ?z) _ => assert (K: keeps x c2) by (eapply keeps_trans; [apply shm_add_keeps|exact S]) end.
    destruct K as [K1 K2]. cbn in K1, K2.
    destruct q; inversion Hw; subst; cbn; (split; [congruence|]); try discriminate; intros _; congruence.
  - destruct (n mod 16 =? 0); inversion Hw; subst; cbn; split; auto; discriminate.
Qed.

Lemma write_stop_sessions_keeps : forall ts c b ts' c', write_stop_sessions E c ts = (b, ts', c') ->
  twoway c' = twoway c /\ (b = true -> st c' = st c).
Proof.
  induction ts as [|t ts IH]; intros c b ts' c' Hw; cbn [write_stop_sessions] in Hw; [inversion Hw; subst; auto|].
  destruct (t_end t) as [e|].
  2:{ destruct (write_stop_sessions E c ts) as [[b1 r1] c1] eqn:W. inversion Hw; subst. eapply IH; eauto. }
  destruct (negb (e_send e)).
  { destruct (write_stop_sessions E c ts) as [[b1 r1] c1] eqn:W. inversion Hw; subst. eapply IH; eauto. }
  set (c0 := if ciphers c then set_shm c (shm c ++ t_sid t) else c) in *.
  assert (K0: keeps c c0) by (unfold c0; destruct (ciphers c); split; reflexivity). destruct K0 as [K01 K02].
  destruct (send_sid E c0 (t_sid t)) as [[q x] c1] eqn:S. apply send_sid_keeps in S. destruct S as [S1 S2].
  destruct q; try (inversion Hw; subst; cbn; split; [congruence|discriminate]).
  destruct (write_skips E c1 (e_size e) (e_skips e)) as [b2 c2] eqn:W. apply write_skips_keeps in W. destruct W as [W1 W2].
  destruct b2; [|inversion Hw; subst; split; [congruence|discriminate]].
  destruct (write_stop_sessions E c2 ts) as [[b3 r3] c3] eqn:W3. inversion Hw; subst. apply IH in W3. destruct W3 as [W31 W32].
  split; [congruence|]. intros ->. rewrite W32, W2 by auto. congruence.
Qed.

Lemma write_stop_st : forall c a n ts rc ts' c', write_stop E H c a n ts = (rc, ts', c') ->
  twoway c' = twoway c /\ (rc = ErrFATAL \/ rc = ErrOK /\ st c' = st c /\ is_st StRequest c && is_st StTest c = true).
Proof.
  intros c a n ts rc ts' c' Hw. unfold write_stop in Hw.
  destruct (is_st StRequest c && is_st StTest c) eqn:G; cbn [negb] in Hw; [|inversion Hw; subst; auto].
  match type of Hw with context [shm_add ?x ?y ?z] => pose proof (shm_add_keeps x y z) as K; set (c0 := shm_add x y z) in * end.
  destruct K as [K1 K2]. cbn in K1, K2. destruct (twoway c0) eqn:TW0.
  - destruct (send_blocks E (shm_digest H c0 16) 0 2) as [q c1] eqn:S. apply send_keeps in S.
    pose proof (shm_digest_keeps H c0 16) as [S1 S2]. destruct S as [S3 S4].
    destruct q; inversion Hw; subst; cbn; (split; [congruence|]); auto. right. repeat split; congruence.
  - destruct (send_blocks E c0 0 1) as [q c1] eqn:S. apply send_keeps in S. destruct S as [S3 S4].
    destruct q; try (inversion Hw; subst; cbn; split; [congruence|auto]; fail).
    destruct (write_stop_sessions E c1 ts) as [[b ts1] c2] eqn:W. apply write_stop_sessions_keeps in W. destruct W as [W1 W2].
    destruct b; [|inversion Hw; subst; split; [congruence|auto]]. specialize (W2 eq_refl).
    destruct (send_blocks E (shm_digest H c2 0) 0 1) as [q c3] eqn:S. apply send_keeps in S.
    pose proof (shm_digest_keeps H c2 0) as [S1 S2]. destruct S as [S5 S6].
    destruct q; inversion Hw; subst; cbn; (split; [congruence|]); auto. right. repeat split; congruence.
Qed.

Lemma read_skips_keeps : forall n c odd prev b w c', read_skips D c n odd prev = (b, w, c') -> keeps c c'.
Proof.
  induction n; intros c odd prev b w c' Hr; cbn [read_skips] in Hr; [inversion Hr; apply keeps_refl|].
  match type of Hr with (let '(r, c0) := ?x in _) = _ => destruct x as [q c1] eqn:X end.
  assert (K: keeps c c1).
  { destruct odd; [inversion X; apply keeps_refl|]. destruct (recv_blocks D c 0 1) as [q2 c2] eqn:R. apply recv_keeps in R.
    destruct q2; inversion X; subst; auto. eapply keeps_trans; [exact R|apply rhm_add_keeps]. }
  destruct q; try (inversion Hr; subst; exact K).
  destruct (_ <? _) in Hr; [inversion Hr; subst; exact K|].
  destruct (negb (prev =? 0) && _) in Hr; [inversion Hr; subst; exact K|].
  destruct (read_skips D c1 n (negb odd) prev) as [[b3 w3] c3] eqn:R. inversion Hr; subst.
  apply IHn in R. eapply keeps_trans; eauto.
Qed.

Variable clean : list Z -> Z -> bool.
Variable save : list Z -> bool.

Lemma read_stop_sessions_keeps : forall n c ts rv bh b ts' rv' bh' fs c',
  read_stop_sessions D clean save c n ts rv bh = (b, ts', rv', bh', fs, c') -> keeps c c'.
Proof.
  induction n; intros c ts rv bh b ts' rv' bh' fs c' Hr; cbn [read_stop_sessions] in Hr; [inversion Hr; apply keeps_refl|].
  destruct (recv_blocks D c 0 1) as [q c1] eqn:R. apply recv_keeps in R.
  destruct q; try (inversion Hr; subst; exact R).
  pose proof (keeps_trans _ _ _ R (rhm_add_keeps c1 0 1)) as R1.
  destruct (find_receiver _ rv) as [[[t rv1] bh1]|]; [|inversion Hr; subst; exact R1].
  destruct (recv_blocks D (rhm_add c1 0 1) 0 1) as [q2 c2] eqn:R2. apply recv_keeps in R2.
  pose proof (keeps_trans _ _ _ R1 R2) as R3.
  destruct q2; try (inversion Hr; subst; exact R3).
  pose proof (keeps_trans _ _ _ R3 (rhm_add_keeps c2 0 1)) as R4.
  destruct (negb (clean _ _)); [inversion Hr; subst; exact R4|].
  destruct (read_skips D (rhm_add c2 0 1) _ true 0) as [[ok w] c3] eqn:K. apply read_skips_keeps in K.
  pose proof (keeps_trans _ _ _ R4 K) as R5.
  destruct (negb ok); [inversion Hr; subst; exact R5|].
  destruct (_ && _) in Hr; [inversion Hr; subst; exact R5|].
  destruct (negb (save _)); [inversion Hr; subst; exact R5|].
  destruct (read_stop_sessions D clean save c3 n (t :: ts) rv1 bh1) as [[[[[b6 ts6] rv6] bh6] fs6] c6] eqn:R6.
  inversion Hr; subst. apply IHn in R6. eapply keeps_trans; eauto.
Qed.

Lemma read_stop_st : forall c ts rc a ts' fs c', read_stop D H clean save c ts = (rc, a, ts', fs, c') ->
  twoway c' = twoway c /\ (rc = ErrFATAL \/ rc = ErrOK /\ st c' = Z.lor (Z.ldiff (st c) StStopSessions) StRequest /\
                           is_st StRequest c && is_st StTest c = true).
Proof.
  intros c ts rc a ts' fs c' Hr. unfold read_stop in Hr.
  destruct (is_st StRequest c && is_st StTest c) eqn:G; cbn [negb] in Hr; [|inversion Hr; subst; auto].
  destruct (get_accept (byte 1 (msg c)) =? CNTRL_INVALID); [inversion Hr; subst; cbn; auto|].
  pose proof (rhm_add_keeps c 0 1) as K0. set (c0 := rhm_add c 0 1) in *. clearbody c0.
  set (num := be_dec (sub 4 4 (msg c))) in *.
  set (av := get_accept (byte 1 (msg c))) in *.
  assert (F: forall (tt : list tsess) (ff : list stored) cc, keeps c cc -> forall (x1 x2 : Z) (x3 : list tsess) (x4 : list stored) (x5 : ctl),
    match recv_blocks D cc 0 1 with
    | (IODone, c) => let (ok, c) := rhm_check H c 0 in
        if ok then (ErrOK, av, tt, ff, or_st (clr_st c StStopSessions) StRequest)
        else (ErrFATAL, CNTRL_FAILURE, tt, ff, invalid c)
    | (IOShort, c) => (ErrFATAL, CNTRL_FAILURE, tt, ff, invalid c)
    | (IOFailed _, c) => (ErrFATAL, CNTRL_FAILURE, tt, ff, invalid c)
    end = (x1, x2, x3, x4, x5) ->
    twoway x5 = twoway c /\ (x1 = ErrFATAL \/ x1 = ErrOK /\ st x5 = Z.lor (Z.ldiff (st c) StStopSessions) StRequest /\ true = true)).
  { intros tt ff cc K x1 x2 x3 x4 x5 X. destruct (recv_blocks D cc 0 1) as [q c1] eqn:R. apply recv_keeps in R.
    pose proof (keeps_trans _ _ _ K R) as [A B]. destruct q; try (inversion X; subst; cbn; auto; fail).
    destruct (rhm_check H c1 0) as [ok c2] eqn:R2. apply rhm_check_keeps in R2. destruct R2 as [R3 R4].
    destruct ok; inversion X; subst; unfold or_st, clr_st; cbn [set_st st twoway invalid]; (split; [congruence|]); auto.
    right. repeat split. congruence. }
  destruct (twoway c0).
  - destruct (negb (num =? _)) in Hr; [inversion Hr; subst; cbn; destruct K0; auto|]. eapply F; eauto.
  - destruct (pull_receivers ts []) as [[snds|] rv]; [|inversion Hr; subst; cbn; destruct K0; auto].
    destruct (read_stop_sessions D clean save c0 (Z.to_nat num) snds rv []) as [[[[[ok ts1] rv1] bh1] fs1] c1] eqn:R.
    apply read_stop_sessions_keeps in R. pose proof (keeps_trans _ _ _ K0 R) as K1.
    destruct (negb ok); [inversion Hr; subst; cbn; destruct K1; auto|].
    destruct bh1; [|inversion Hr; subst; cbn; destruct K1; auto].
    destruct (match recv_blocks D c1 0 1 with
    | (IODone, c) => let (ok, c) := rhm_check H c 0 in
        if ok then (ErrOK, av, ts1, fs1, or_st (clr_st c StStopSessions) StRequest)
        else (ErrFATAL, CNTRL_FAILURE, ts1, fs1, invalid c)
    | (IOShort, c) => (ErrFATAL, CNTRL_FAILURE, ts1, fs1, invalid c)
    | (IOFailed _, c) => (ErrFATAL, CNTRL_FAILURE, ts1, fs1, invalid c)
    end) as [[[[x1 x2] x3] x4] x5] eqn:XX.
    apply (F ts1 fs1 c1 K1) in XX. inversion Hr; subst. exact XX.
Qed.

(** ** Skeletons of the calls *)

Definition sk_stop (w : Z) : list (bool * Z) :=
  (false, 0) ::
  (if on StRequest w && on StTest w then
     flat_map (fun x => if fst x =? 3 then [(true, Z.ldiff (Z.lor (Z.ldiff (snd x) StStopSessions) StRequest) StTest)] else [])
              (skel false OReadType w)
   else []).

Definition sk_test (w : Z) : list (bool * Z) :=
  flat_map (fun x => if fst x =? ErrOK
                     then [(true, snd x); (false, snd x)] ++
                          flat_map (fun y => [(true, snd y); (false, snd y)]) (skel false (OWriteAccept 0 0 None) (snd x))
                     else (false, snd x) :: map (fun y => (false, snd y)) (skel false (OWriteAccept 0 0 None) (snd x))) (skel false (OReadTest true false true) w).

Definition sk_start (w : Z) : list (bool * Z) :=
  flat_map (fun x => if fst x =? ErrOK
                     then flat_map (fun y => if fst y =? ErrOK then [(true, snd y)] else [(false, 0)]) (skel false (OWriteStartAck 0) (snd x)) ++ [(false, 0)]
                     else [(false, 0)]) (skel false OReadStart w).

Definition sk_fetch (w : Z) : list (bool * Z) :=
  (false, 0) ::
  flat_map (fun x => if fst x =? ErrOK
                     then flat_map (fun y => if fst y =? ErrOK then [(true, Z.lor (Z.ldiff (snd y) StFetching) StRequest)] else []) (skel false (OWriteFetchAck 0 0 0 0 0) (snd x)) ++
                          flat_map (fun y => if fst y =? ErrOK then [(false, snd y)] else []) (skel false (OWriteFetchAck 1 0 0 0 0) (snd x))
                     else []) (skel false OReadFetch w).

Lemma read_test_some : forall c sv al sl rc q a c', read_test_request D H c sv al sl = (rc, q, a, c') ->
  match q with Some _ => rc = ErrOK | None => rc <> ErrOK end.
Proof.
  intros c sv al sl rc q a c' R. unfold read_test_request in R.
  destruct (negb _) in R; [inversion R; discriminate|].
  destruct (if sv then (IODone, c) else recv_blocks D c 0 1) as [r0 c0]. destruct r0; try (inversion R; discriminate).
  destruct (recv_blocks D c0 16 6) as [r1 c1]. destruct r1; try (inversion R; discriminate).
  destruct (rhm_check H (rhm_add c1 0 6) 96) as [b c2]. destruct (negb b); try (inversion R; discriminate).
  destruct (decode_preamble _ _ _ _ _) as [p| |]; try (inversion R; discriminate).
  destruct (negb (ll_scope_ok _ (p_sender p))); try (inversion R; discriminate).
  destruct (negb (ll_scope_ok _ (p_receiver p))); try (inversion R; discriminate).
  destruct (negb al); try (inversion R; discriminate).
  destruct (twoway _); [inversion R; reflexivity|].
  destruct (read_slots D H _ _ _) as [[l|] c4]; try (inversion R; discriminate).
  destruct (sl || _); inversion R; try discriminate; reflexivity.
Qed.


Lemma test_step : forall s w, twoway (s_c s) = false ->
  forall rc s', process_test_request E D H s w = (rc, s') \/ process_test_request_tw E D H s w = (rc, s') ->
  twoway (s_c s') = false /\ exists b, In (b, st (s_c s')) (sk_test (st (s_c s))) /\ (rc = ErrOK -> b = true) /\ (rc <> ErrOK -> b = false).
Proof.
  intros s w TW rc s' P.
  destruct (read_test_request D H (s_c s) true (w_alloc w) (w_slots w)) as [[[rc1 q] a] c1] eqn:R.
  pose proof (skel_sound E D H (OReadTest true (w_alloc w) (w_slots w)) (s_c s)) as [K1 K2].
  pose proof (read_test_some _ _ _ _ _ _ _ _ R) as Q.
  cbn [call] in K1, K2. rewrite R in K1, K2. cbn [fst snd] in K1, K2. rewrite TW in *.
  assert (K1': In (rc1, st c1) (skel false (OReadTest true false true) (st (s_c s)))).
  { revert K1. cbn [skel]. destruct (negb _); [auto|]. destruct (w_alloc w); [|auto]. cbn. intros X. intuition. }
  clear K1. rename K1' into K1.
  assert (N: forall rr ss, rc1 <> ErrOK -> s_c ss = c1 -> rr <> ErrOK -> twoway (s_c ss) = false /\
       exists b, In (b, st (s_c ss)) (sk_test (st (s_c s))) /\ (rr = ErrOK -> b = true) /\ (rr <> ErrOK -> b = false)).
  { intros rr ss n e ne. rewrite e. split; [auto|]. exists false. split; [|split; [congruence|auto]].
    unfold sk_test. apply in_flat_map. exists (rc1, st c1). split; [exact K1|]. cbn [fst snd].
    replace (rc1 =? ErrOK) with false by lia. now left. }
  assert (W1: forall aa pp sid0 c2 rr2, rc1 = ErrOK -> write_accept E H c1 aa pp sid0 = (rr2, c2) ->
     twoway c2 = false /\ forall b, In (b, st c2) (sk_test (st (s_c s)))).
  { intros aa pp sid0 c2 rr2 e W. pose proof (skel_sound E D H (OWriteAccept aa pp sid0) c1) as [L1 L2].
    cbn [call] in L1, L2. rewrite W in L1, L2. cbn [fst snd] in L1, L2. rewrite K2 in L1, L2. split; [auto|]. intros b.
    unfold sk_test. apply in_flat_map. exists (rc1, st c1). split; [exact K1|]. cbn [fst snd].
    rewrite e. change (ErrOK =? ErrOK) with true. cbv iota. apply in_or_app. right. apply in_flat_map. exists (rr2, st c2). split; [exact L1|].
    destruct b; cbn; auto. }
  assert (W0: rc1 = ErrOK -> forall b, In (b, st c1) (sk_test (st (s_c s)))).
  { intros e b. unfold sk_test. apply in_flat_map. exists (rc1, st c1). split; [exact K1|]. cbn [fst snd].
    rewrite e. change (ErrOK =? ErrOK) with true. cbv iota. apply in_or_app. left. destruct b; cbn; auto. }
  assert (Y: forall rr ss, rc1 = ErrOK -> (s_c ss = c1 \/ exists aa pp sid0 rr2, write_accept E H c1 aa pp sid0 = (rr2, s_c ss)) ->
       twoway (s_c ss) = false /\ exists b, In (b, st (s_c ss)) (sk_test (st (s_c s))) /\ (rr = ErrOK -> b = true) /\ (rr <> ErrOK -> b = false)).
  { intros rr ss e [O|(aa & pp & sid0 & rr2 & O)].
    - rewrite O. split; [auto|]. exists (rr =? ErrOK). split; [apply W0; auto|split; lia].
    - destruct (W1 _ _ _ _ _ e O) as [X1 X2]. split; [auto|]. exists (rr =? ErrOK). split; [apply X2|split; lia]. }
  assert (Yr: forall aa ee rr ss, rc1 = ErrOK ->
       (fst (refuse E H c1 aa ee), mkSrv (snd (refuse E H c1 aa ee)) (s_tests s) (s_sessions s)) = (rr, ss) ->
       twoway (s_c ss) = false /\ exists b, In (b, st (s_c ss)) (sk_test (st (s_c s))) /\ (rr = ErrOK -> b = true) /\ (rr <> ErrOK -> b = false)).
  { intros aa ee rr ss e X. inversion X; subst. apply Y; auto. cbn [s_c]. unfold refuse.
    destruct (ErrWARNING <=? ee); [|left; reflexivity]. right. exists aa, 0, None.
    destruct (write_accept E H c1 aa 0 None) as [rr2 cc]. exists rr2. reflexivity. }
  assert (Ya: forall pp sid0 tt ss0 rr ss, rc1 = ErrOK ->
       (let (rc, c) := write_accept E H c1 CNTRL_ACCEPT pp (Some sid0) in
        if rc <? ErrOK then (rc, mkSrv c (s_tests s) (s_sessions s)) else (ErrOK, mkSrv c tt ss0)) = (rr, ss) ->
       twoway (s_c ss) = false /\ exists b, In (b, st (s_c ss)) (sk_test (st (s_c s))) /\ (rr = ErrOK -> b = true) /\ (rr <> ErrOK -> b = false)).
  { intros pp sid0 tt ss0 rr ss e X. destruct (write_accept E H c1 CNTRL_ACCEPT pp (Some sid0)) as [rr2 cc] eqn:W.
    apply Y; auto. right. exists CNTRL_ACCEPT, pp, (Some sid0), rr2. destruct (rr2 <? ErrOK); inversion X; subst; exact W. }
  destruct P as [P|P].
  - unfold process_test_request in P. rewrite R in P. destruct q as [q|].
    2:{ inversion P; subst. apply N; [auto|reflexivity|]. destruct (a <? 0); discriminate. }
    destruct (negb (w_addrs w)); [eapply Yr; eauto|].
    destruct (if q_conf_receiver q then w_sid w else Some (q_sid q)) as [sid|]; [|eapply Yr; eauto].
    destruct (negb (w_sched w)); [eapply Yr; eauto|].
    match type of P with match ?x with Some _ => _ | None => _ end = _ => destruct x as [[aa ee]|] end; [eapply Yr; eauto|].
    match type of P with match ?x with Some _ => _ | None => _ end = _ => destruct x as [[aa ee]|] end; [eapply Yr; eauto|].
    match type of P with match ?x with Some _ => _ | None => _ end = _ => destruct x as [[aa ee]|] end; [eapply Yr; eauto|].
    eapply Ya; eauto.
  - unfold process_test_request_tw in P. rewrite R in P. destruct q as [q|].
    2:{ inversion P; subst. clear P. unfold refuse.
        destruct (ErrWARNING <=? if a <? 0 then ErrFATAL else ErrWARNING); cbn [fst snd].
        2:{ apply N; [auto|reflexivity|]. destruct (a <? 0); discriminate. }
        destruct (write_accept E H c1 a 0 None) as [rr2 cc] eqn:W. cbn [snd s_c].
        pose proof (skel_sound E D H (OWriteAccept a 0 None) c1) as [L1 L2].
        cbn [call] in L1, L2. rewrite W in L1, L2. cbn [fst snd] in L1, L2. rewrite K2 in L1, L2. split; [auto|].
        exists false. split; [|split; [destruct (a <? 0); discriminate|auto]].
        unfold sk_test. apply in_flat_map. exists (rc1, st c1). split; [exact K1|]. cbn [fst snd].
        replace (rc1 =? ErrOK) with false by lia. right. apply in_map_iff. exists (rr2, st cc). auto. }
    destruct (negb (w_addrs w)); [eapply Yr; eauto|].
    destruct (w_sid w) as [sid|]; [|eapply Yr; eauto].
    destruct (policy_step w a) as [[aa ee]|]; [eapply Yr; eauto|].
    destruct (w_init w) as [[aa ee]|]; [eapply Yr; eauto|].
    destruct (w_hook w) as [[aa ee]|]; [eapply Yr; eauto|].
    destruct (w_port w =? 0); [eapply Yr; eauto|].
    eapply Ya; eauto.
Qed.

Lemma start_step : forall s l rc s', twoway (s_c s) = false -> process_start E D H s l = (rc, s') ->
  twoway (s_c s') = false /\ exists b, In (b, st (s_c s')) (sk_start (st (s_c s))) /\ (rc = ErrOK -> b = true) /\ (rc <> ErrOK -> b = false).
Proof.
  intros s l rc s' TW P. unfold process_start in P.
  destruct (read_start D H (s_c s)) as [r1 c1] eqn:R.
  pose proof (skel_sound E D H OReadStart (s_c s)) as [K1 K2]. cbn [call] in K1, K2. rewrite R in K1, K2. cbn [fst snd] in K1, K2. rewrite TW in *.
  assert (DR: r1 = ErrOK \/ r1 = ErrFATAL).
  { revert K1. cbn [skel]. destruct (negb (on StStartSessions (st (s_c s)))); cbn; intuition congruence. }
  destruct DR as [-> | ->].
  2:{ change (ErrFATAL <? ErrOK) with true in P. cbv iota in P. inversion P; subst. cbn [s_c invalid set_st st twoway]. split; [auto|].
      exists false. split; [|split; [discriminate|auto]]. unfold sk_start. apply in_flat_map. exists (ErrFATAL, st c1). split; [exact K1|]. now left. }
  change (ErrOK <? ErrOK) with false in P. cbv iota in P.
  destruct (forallb _ _).
  - destruct (write_start_ack E H c1 CNTRL_ACCEPT) as [r2 c2] eqn:W.
    pose proof (skel_sound E D H (OWriteStartAck CNTRL_ACCEPT) c1) as [L1 L2]. cbn [call] in L1, L2. rewrite W in L1, L2. cbn [fst snd] in L1, L2. rewrite K2 in *.
    assert (DR: r2 = ErrOK \/ r2 = ErrFATAL).
    { revert L1. cbn [skel]. destruct (negb (on StStartAck (st c1))); cbn; intuition congruence. }
    assert (G: forall x, In x (if r2 =? ErrOK then [(true, st c2)] else [(false, 0)]) -> In x (sk_start (st (s_c s)))).
    { intros x Hx. unfold sk_start. apply in_flat_map. exists (ErrOK, st c1). split; [exact K1|]. cbn [fst snd].
      change (ErrOK =? ErrOK) with true. cbv iota. apply in_or_app. left. apply in_flat_map. exists (r2, st c2). split; [exact L1|]. exact Hx. }
    destruct DR as [-> | ->].
    + change (ErrOK <? ErrOK) with false in P. inversion P; subst. cbn [s_c]. split; [auto|]. exists true. split; [|split; [auto|congruence]]. apply G. now left.
    + change (ErrFATAL <? ErrOK) with true in P. inversion P; subst. cbn [s_c invalid set_st st twoway]. split; [auto|]. exists false. split; [|split; [discriminate|auto]]. apply G. now left.
  - destruct (write_start_ack E H c1 CNTRL_FAILURE) as [r2 c2] eqn:W. 
    pose proof (skel_sound E D H (OWriteStartAck CNTRL_FAILURE) c1) as [L1 L2]. cbn [call] in L1, L2. rewrite W in L1, L2. cbn [fst snd] in L1, L2. rewrite K2 in *.
    inversion P; subst. cbn [s_c invalid set_st st twoway]. split; [auto|]. exists false. split; [|split; [discriminate|auto]].
    unfold sk_start. apply in_flat_map. exists (ErrOK, st c1). split; [exact K1|]. cbn [fst snd].
    change (ErrOK =? ErrOK) with true. cbv iota. apply in_or_app. right. now left.
Qed.

Lemma send_outs_keeps : forall l c b c', send_outs E H c l = (b, c') -> keeps c c'.
Proof.
  induction l as [|o l IH]; intros c b c' Hs; cbn [send_outs] in Hs; [inversion Hs; apply keeps_refl|].
  set (res := match o with Chunk _ => _ | Seal => _ | Broken => _ end) in Hs.
  destruct res as [q c1] eqn:R.
  assert (K: keeps c c1).
  { unfold res in R. destruct o.
    - apply send_keeps in R. eapply keeps_trans; [|exact R]. eapply keeps_trans; [|apply shm_add_keeps]. split; reflexivity.
    - apply send_keeps in R. eapply keeps_trans; [|exact R]. apply shm_digest_keeps.
    - inversion R; apply keeps_refl. }
  destruct q; try (inversion Hs; subst; exact K). eapply keeps_trans; [exact K|eauto].
Qed.

Lemma fetch_step : forall s look rc s', twoway (s_c s) = false -> process_fetch E D H s look = (rc, s') ->
  twoway (s_c s') = false /\ exists b, In (b, st (s_c s')) (sk_fetch (st (s_c s))) /\ (rc = ErrOK -> b = true) /\ (rc <> ErrOK -> b = false).
Proof.
  intros s look rc s' TW P. unfold process_fetch in P.
  destruct (read_fetch D H (s_c s)) as [[r1 [[b e] sid]] c1] eqn:R.
  pose proof (skel_sound E D H OReadFetch (s_c s)) as [K1 K2]. cbn [call] in K1, K2. rewrite R in K1, K2. cbn [fst snd] in K1, K2. rewrite TW in *.
  assert (DR: r1 = ErrOK \/ r1 = ErrFATAL).
  { revert K1. cbn [skel]. destruct (negb (on StFetchSession (st (s_c s)))); cbn; intuition congruence. }
  assert (INV: forall rr cc, rr <> ErrOK -> twoway cc = false -> (rr, mkSrv (invalid cc) (s_tests s) (s_sessions s)) = (rc, s') ->
     twoway (s_c s') = false /\ exists b, In (b, st (s_c s')) (sk_fetch (st (s_c s))) /\ (rc = ErrOK -> b = true) /\ (rc <> ErrOK -> b = false)).
  { intros rr cc n t X. inversion X; subst. cbn [s_c invalid set_st st twoway]. split; [auto|]. exists false. split; [now left|split; congruence]. }
  destruct DR as [-> | ->].
  2:{ change (ErrFATAL <? ErrOK) with true in P. cbn [fst snd] in P. eapply INV; [|exact K2|exact P]. discriminate. }
  change (ErrOK <? ErrOK) with false in P. cbv iota in P.
  assert (NEG: forall a, a <> CNTRL_ACCEPT -> (let r := (let (rc, c) := write_fetch_ack E H c1 a 0 0 0 0 in
      if rc <? ErrOK then (rc, invalid c) else (ErrWARNING, c)) in (fst r, mkSrv (snd r) (s_tests s) (s_sessions s))) = (rc, s') ->
      twoway (s_c s') = false /\ exists b, In (b, st (s_c s')) (sk_fetch (st (s_c s))) /\ (rc = ErrOK -> b = true) /\ (rc <> ErrOK -> b = false)).
  { intros a na X. destruct (write_fetch_ack E H c1 a 0 0 0 0) as [r2 c2] eqn:W.
    pose proof (skel_sound E D H (OWriteFetchAck a 0 0 0 0) c1) as [L1 L2]. cbn [call] in L1, L2. rewrite W in L1, L2. cbn [fst snd] in L1, L2. rewrite K2 in *.
    assert (DR: r2 = ErrOK \/ r2 = ErrFATAL).
    { revert L1. cbn [skel]. destruct (negb (on StFetchAck (st c1))); cbn; intuition congruence. }
    destruct DR as [-> | ->].
    - change (ErrOK <? ErrOK) with false in X. cbn [fst snd] in X. inversion X; subst. cbn [s_c]. split; [auto|]. exists false. split; [|split; [discriminate|auto]].
      right. apply in_flat_map. exists (ErrOK, st c1). split; [exact K1|]. cbn [fst snd]. change (ErrOK =? ErrOK) with true. cbv iota.
      apply in_or_app. right. apply in_flat_map. exists (ErrOK, st c2). split; [|now left].
      revert L1. cbn [skel]. replace (a =? CNTRL_ACCEPT) with false by lia. change (1 =? CNTRL_ACCEPT) with false. auto.
    - change (ErrFATAL <? ErrOK) with true in X. cbn [fst snd] in X. eapply INV; [|exact L2|exact X]. discriminate. }
  destruct (look b e sid) as [err| | |fin next nsk nrec pre body].
  - destruct (err <? ErrOK) eqn:EE; [eapply INV; [|exact K2|exact P]; cbn [fst]; apply Z.ltb_lt in EE; intros ->; exact (Z.lt_irrefl _ EE)|]. apply (NEG CNTRL_REJECT); [discriminate|exact P].
  - apply (NEG CNTRL_REJECT); [discriminate|exact P].
  - apply (NEG CNTRL_FAILURE); [discriminate|exact P].
  - destruct (write_fetch_ack E H c1 CNTRL_ACCEPT fin next nsk nrec) as [r2 c2] eqn:W.
    pose proof (skel_sound E D H (OWriteFetchAck CNTRL_ACCEPT fin next nsk nrec) c1) as [L1 L2]. cbn [call] in L1, L2. rewrite W in L1, L2. cbn [fst snd] in L1, L2. rewrite K2 in *.
    assert (DR: r2 = ErrOK \/ r2 = ErrFATAL).
    { revert L1. cbn [skel]. destruct (negb (on StFetchAck (st c1))); cbn; intuition congruence. }
    destruct DR as [-> | ->].
    2:{ change (ErrFATAL <? ErrOK) with true in P. eapply INV; [|exact L2|exact P]. discriminate. }
    change (ErrOK <? ErrOK) with false in P. cbv iota in P.
    destruct pre as [pre|]; [|eapply INV; [|exact L2|exact P]; discriminate].
    destruct (send_blocks E _ 0 7) as [q c3] eqn:S in P. apply emit_keeps in S. destruct S as [S1 S2].
    assert (T3: twoway c3 = false) by congruence.
    destruct q; try (eapply INV; [|exact T3|exact P]; discriminate).
    destruct (send_outs E H c3 body) as [ok c4] eqn:SO. apply send_outs_keeps in SO. destruct SO as [S3 S4].
    assert (T4: twoway c4 = false) by congruence.
    destruct ok; [|eapply INV; [|exact T4|exact P]; discriminate].
    inversion P; subst. unfold or_st, clr_st. cbn [s_c set_st st twoway]. split; [auto|]. exists true. split; [|split; [auto|congruence]].
    right. apply in_flat_map. exists (ErrOK, st c1). split; [exact K1|]. cbn [fst snd]. change (ErrOK =? ErrOK) with true. cbv iota.
    apply in_or_app. left. apply in_flat_map. exists (ErrOK, st c2). split; [exact L1|]. cbn [fst snd]. change (ErrOK =? ErrOK) with true. cbv iota.
    left. rewrite S3, S1. reflexivity.
Qed.

Lemma stop_step : forall s a w rc av fs c', twoway (s_c s) = false ->
  stop_sessions E D H clean save (s_c s) true a (s_tests s) w = (rc, av, fs, c') ->
  twoway c' = false /\ exists b, In (b, st c') (sk_stop (st (s_c s))) /\ (ErrWARNING <= rc -> b = true) /\ (rc < ErrWARNING -> b = false).
Proof.
  intros s a w rc av fs c' TW P. unfold stop_sessions in P.
  set (finish := stop_finish w) in P.
  assert (F: forall err aval rs files c, twoway c = false -> finish err aval rs files c = (rc, av, fs, c') ->
     err < ErrWARNING \/ rs = false \/ In (true, Z.ldiff (st c) StTest) (sk_stop (st (s_c s))) ->
     twoway c' = false /\ exists b, In (b, st c') (sk_stop (st (s_c s))) /\ (ErrWARNING <= rc -> b = true) /\ (rc < ErrWARNING -> b = false)).
  { intros err aval rs files c T X Y. unfold finish, stop_finish in X. destruct (Z.min err (sw_free w) <? ErrWARNING) eqn:M.
    - inversion X; subst. cbn [invalid set_st st twoway]. split; [auto|]. exists false. split; [now left|split; lia].
    - destruct rs; cbn [negb] in X.
      + inversion X; subst. unfold clr_st. cbn [set_st st twoway]. split; [auto|]. exists true. split; [|split; lia].
        destruct Y as [Y|[Y|Y]]; [lia|discriminate|exact Y].
      + inversion X; subst. cbn [invalid set_st st twoway]. split; [auto|]. exists false. split; [now left|split; unfold ErrFATAL, ErrWARNING; lia]. }
  clearbody finish.
  destruct (stop_send (twoway (s_c s)) (s_tests s) ErrOK a 0) as [[[err1 aval1] num] ts1].
  destruct (err1 <? ErrWARNING) eqn:E1. { eapply F; [exact TW|exact P|lia]. }
  destruct (write_stop E H (s_c s) aval1 num ts1) as [[e ts2] c1] eqn:W. apply write_stop_st in W. destruct W as [W1 W2]. rewrite TW in W1.
  assert (CL: forall er avl cc, twoway cc = false ->
    (let er := Z.min (sw_recv w) er in
     let avl := if avl =? CNTRL_ACCEPT then sw_aval w else avl in
     if er <? ErrWARNING then finish er avl false [] cc else
     finish (if sw_clean w then er else ErrFATAL) avl false [] cc) = (rc, av, fs, c') ->
    twoway c' = false /\ exists b, In (b, st c') (sk_stop (st (s_c s))) /\ (ErrWARNING <= rc -> b = true) /\ (rc < ErrWARNING -> b = false)).
  { intros er avl cc T X. cbv zeta in X. destruct (_ <? ErrWARNING) in X; eapply F; eauto. }
  destruct (Z.min e err1 <? ErrWARNING) eqn:E2. { eapply (CL _ _); [exact W1|exact P]. }
  rewrite W1 in P. cbn [andb] in P.
  destruct W2 as [->|[-> [W2 W3]]]; [unfold ErrFATAL, ErrWARNING in *; lia|].
  destruct (read_request_type D c1) as [t c2] eqn:R.
  pose proof (skel_sound E D H OReadType c1) as [K1 K2]. cbn [call] in K1, K2. rewrite R in K1, K2. cbn [fst snd] in K1, K2. rewrite W1 in *. rewrite W2 in K1.
  destruct (t =? 3) eqn:T3.
  - destruct (Z.min (sw_recv w) (Z.min ErrOK err1) <? ErrWARNING) eqn:E3. { eapply F; [exact K2|exact P|lia]. }
    destruct (read_stop D H clean save c2 ts2) as [[[[e4 a4] ts4] fs4] c4] eqn:RS. apply read_stop_st in RS. destruct RS as [RS1 RS2].
    eapply F; [|exact P|]; [congruence|]. destruct RS2 as [->|[-> [RS2 RS3]]]; [left; unfold ErrFATAL, ErrWARNING in *; lia|].
    right; right. unfold sk_stop. right. unfold is_st in W3. unfold on. rewrite W3. apply in_flat_map. exists (t, st c2). split; [exact K1|].
    cbn [fst snd]. rewrite T3. left. rewrite RS2. reflexivity.
  - destruct ((t =? ReqSockClose) || (t =? ReqSockIntr)).
    + eapply (CL _ _); [exact K2|exact P].
    + eapply F; [exact K2|exact P|left; unfold ErrFATAL, ErrWARNING; lia].
Qed.

Lemma stop_wait_step : forall s w r av er fs c', twoway (s_c s) = false ->
  stop_wait E D H clean save (s_c s) true (s_tests s) w = (r, av, er, fs, c') ->
  twoway c' = false /\ exists b, In (b, st c') (sk_stop (st (s_c s))) /\ (r = 0 -> b = true) /\ (r <> 0 -> b = false).
Proof.
  intros s w r av er fs c' TW P. unfold stop_wait in P.
  set (done := wait_finish E H true w) in P.
  assert (F: forall err aval num rs ts files c, twoway c = false -> done err aval num rs ts files c = (r, av, er, fs, c') ->
     err < ErrWARNING \/ rs = false \/ In (true, Z.ldiff (st c) StTest) (sk_stop (st (s_c s))) ->
     twoway c' = false /\ exists b, In (b, st c') (sk_stop (st (s_c s))) /\ (r = 0 -> b = true) /\ (r <> 0 -> b = false)).
  { intros err aval num rs ts files c T X Y. unfold done, wait_finish in X. cbv zeta in X.
    destruct (rs && (ErrWARNING <=? err) && negb (twoway c && true)) eqn:G in X.
    - destruct (write_stop E H c _ num ts) as [[e ts2] c1] eqn:W in X. apply write_stop_st in W. destruct W as [W1 W2].
      destruct (_ <? ErrWARNING) eqn:M in X; [|destruct rs; cbn [negb] in X].
      + inversion X; subst. cbn [invalid set_st st twoway]. split; [congruence|]. exists false. split; [now left|split; lia].
      + inversion X; subst. unfold clr_st. cbn [set_st st twoway]. split; [congruence|]. exists true. split; [|split; lia].
        destruct W2 as [->|[-> [W2 W3]]]; [unfold ErrFATAL, ErrWARNING in *; lia|]. rewrite W2.
        destruct Y as [Y|[Y|Y]]; [lia|discriminate|exact Y].
      + inversion X; subst. cbn [invalid set_st st twoway]. split; [congruence|]. exists false. split; [now left|split; lia].
    - destruct (_ <? ErrWARNING) eqn:M in X; [|destruct rs; cbn [negb] in X].
      + inversion X; subst. cbn [invalid set_st st twoway]. split; [auto|]. exists false. split; [now left|split; lia].
      + rewrite T in G. cbn in G. lia.
      + inversion X; subst. cbn [invalid set_st st twoway]. split; [auto|]. exists false. split; [now left|split; lia]. }
  clearbody done. rewrite TW in P. cbn [negb andb] in P.
  destruct (read_request_type D (s_c s)) as [t c2] eqn:R.
  pose proof (skel_sound E D H OReadType (s_c s)) as [K1 K2]. cbn [call] in K1, K2. rewrite R in K1, K2. cbn [fst snd] in K1, K2. rewrite TW in *.
  rewrite K2 in P. rewrite andb_false_r in P. cbn [andb] in P.
  destruct ((t =? 3) || (t =? ReqSockClose) || (t =? ReqSockIntr)).
  2:{ eapply F; [exact K2|exact P|left; unfold ErrFATAL, ErrWARNING; lia]. }
  destruct (stop_send false (s_tests s) ErrOK CNTRL_ACCEPT 0) as [[[err1 aval1] num] ts1].
  destruct (err1 <? ErrWARNING) eqn:E1. { eapply F; [exact K2|exact P|lia]. }
  destruct (Z.min err1 (sw_recv w) <? ErrWARNING) eqn:E3. { eapply F; [exact K2|exact P|lia]. }
  destruct (t =? 3) eqn:T3.
  - destruct (read_stop D H clean save c2 ts1) as [[[[e4 a4] ts4] fs4] c4] eqn:RS. apply read_stop_st in RS. destruct RS as [RS1 RS2].
    eapply F; [|exact P|]; [congruence|]. destruct RS2 as [->|[-> [RS2 RS3]]]; [left; unfold ErrFATAL, ErrWARNING in *; lia|].
    right; right. unfold sk_stop. right.
    assert (G: on StRequest (st (s_c s)) && on StTest (st (s_c s)) = true).
    { revert K1. cbn [skel]. replace t with 3 by lia.
      destruct (on StRequest (st (s_c s))) eqn:O1; cbn [negb orb andb].
      2:{ cbn. intros [X|[]]. inversion X. }
      destruct (on StReading (st (s_c s))); [cbn; intros [X|[]]; inversion X|].
      destruct (on StTest (st (s_c s))); [auto|]. cbn; intros X; repeat (destruct X as [X|X]; [inversion X|]); contradiction. }
    rewrite G. apply in_flat_map. exists (t, st c2). split; [exact K1|].
    cbn [fst snd]. rewrite T3. left. rewrite RS2. reflexivity.
  - eapply F; [exact K2|exact P|right; left; reflexivity].
Qed.
End S.

(** ** Histories *)

(** a call and its result, as far as the observer's view and the protocol depend on them *)
Inductive ev := ERead (t : Z) | ETest (b : bool) | EStart (b : bool) | EFetch (b : bool) | EStop (b : bool) | EOdd.

Definition ev_of (e : cmd * Z) : ev :=
  match fst e with
  | CRead => ERead (snd e)
  | CTest _ | CTestTW _ => ETest (worked e)
  | CStart _ => EStart (worked e)
  | CFetch _ => EFetch (worked e)
  | CStop _ _ _ _ | CStopWait _ _ _ => EStop (worked e)
  | CUnexpected => EOdd
  end.

Definition ev_worked (e : ev) : bool :=
  match e with ERead t => (1 <=? t) && (t <=? 5) | ETest b | EStart b | EFetch b | EStop b => b | EOdd => false end.

Definition ev_note (v : view) (e : ev) : view :=
  let w := ev_worked e in
  let v' := if w then None else v_request v in
  match e with
  | ERead t => if w then mkView (v_running v) (Some t) (negb (t =? 5)) else v
  | ETest _ | EFetch _ => mkView (v_running v) v' false
  | EStart _ => mkView (v_running v || w) v' false
  | EStop _ => mkView (v_running v && negb w) v' false
  | EOdd => v
  end.

Definition oz_eqb (a b : option Z) : bool :=
  match a, b with None, None => true | Some x, Some y => x =? y | _, _ => false end.

Definition ev_allowed (v : view) (e : ev) : bool :=
  negb (ev_worked e) ||
  match e with
  | ERead t => negb (v_busy v) && Bool.eqb (t =? 3) (v_running v)
  | ETest _ => negb (v_running v) && oz_eqb (v_request v) (Some 1)
  | EStart _ => negb (v_running v) && oz_eqb (v_request v) (Some 2)
  | EFetch _ => negb (v_running v) && oz_eqb (v_request v) (Some 4)
  | EStop _ => v_running v
  | EOdd => false
  end.

Lemma oz_eqb_eq : forall a b, oz_eqb a b = true -> a = b.
Proof. intros [a|] [b|]; cbn; intros; try discriminate; auto. f_equal. lia. Qed.

Lemma ev_note_ok : forall v e, fst e <> CUnexpected -> note false v e = ev_note v (ev_of e).
Proof. intros v [[] rc] N; cbn in N; try congruence; reflexivity. Qed.

Lemma ev_allowed_ok : forall v e, fst e <> CUnexpected -> ev_allowed v (ev_of e) = true -> allowed false v e.
Proof.
  intros v [k rc] N A W. 
  assert (X: ev_worked (ev_of (k, rc)) = true) by (destruct k; try exact W; cbn in N; congruence).
  unfold ev_allowed in A. rewrite X in A. cbn [negb orb] in A.
  destruct k; cbn [ev_of fst snd] in *; repeat rewrite andb_true_iff in A.
  - destruct A as [A1 A2]. apply eqb_prop in A2. split; [now destruct (v_busy v)|]. destruct (v_running v); split; intros; try congruence; lia.
  - destruct A as [A1 A2]. split; [now destruct (v_running v)|now apply oz_eqb_eq].
  - destruct A as [A1 A2]. split; [now destruct (v_running v)|now apply oz_eqb_eq].
  - destruct A as [A1 A2]. split; [now destruct (v_running v)|now apply oz_eqb_eq].
  - destruct A as [A1 A2]. split; [now destruct (v_running v)|now apply oz_eqb_eq].
  - exact A.
  - exact A.
  - congruence.
Qed.

(** everything a call may do to the state word *)
Definition moves (w : Z) : list (ev * Z) :=
  map (fun x => (ERead (fst x), snd x)) (skel false OReadType w) ++
  map (fun x => (ETest (fst x), snd x)) (sk_test w) ++
  map (fun x => (EStart (fst x), snd x)) (sk_start w) ++
  map (fun x => (EFetch (fst x), snd x)) (sk_fetch w) ++
  map (fun x => (EStop (fst x), snd x)) (sk_stop w).

Definition vw_eqb (a b : Z * view) : bool :=
  (fst a =? fst b) && Bool.eqb (v_running (snd a)) (v_running (snd b)) &&
  oz_eqb (v_request (snd a)) (v_request (snd b)) && Bool.eqb (v_busy (snd a)) (v_busy (snd b)).

Lemma vw_eqb_eq : forall a b, vw_eqb a b = true -> a = b.
Proof.
  intros [w [r q b]] [w' [r' q' b']] X. unfold vw_eqb in X. cbn in X. repeat rewrite andb_true_iff in X. destruct X as [[[X1 X2] X3] X4].
  apply oz_eqb_eq in X3. apply eqb_prop in X2, X4. assert (w = w') by lia. congruence.
Qed.

Definition known (l : list (Z * view)) (x : Z * view) : bool := existsb (vw_eqb x) l.

Fixpoint add_all (new l : list (Z * view)) : list (Z * view) :=
  match new with [] => l | x :: r => add_all r (if known l x then l else x :: l) end.

Definition expand (l : list (Z * view)) : list (Z * view) :=
  fold_left (fun acc x => add_all (map (fun m => (snd m, ev_note (snd x) (fst m))) (moves (fst x))) acc) l l.

Fixpoint closure (n : nat) (l : list (Z * view)) : list (Z * view) :=
  match n with O => l | S k => closure k (expand l) end.

Definition reach : list (Z * view) := Eval vm_compute in closure 12 [(StRequest, mkView false None false)].

Definition fine (x : Z * view) : bool :=
  forallb (fun m => ev_allowed (snd x) (fst m) && known reach (snd m, ev_note (snd x) (fst m))) (moves (fst x)).

Lemma reach_fine : forallb fine reach = true.
Proof. vm_compute. reflexivity. Qed.

Lemma reach_move : forall w v e w', In (w, v) reach -> In (e, w') (moves w) -> ev_allowed v e = true /\ In (w', ev_note v e) reach.
Proof.
  intros w v e w' R M. pose proof reach_fine as F. rewrite forallb_forall in F. specialize (F _ R).
  unfold fine in F. rewrite forallb_forall in F. specialize (F _ M). cbn [fst snd] in F. rewrite andb_true_iff in F. destruct F as [F1 F2].
  split; [exact F1|]. unfold known in F2. rewrite existsb_exists in F2. destruct F2 as [x [I X]]. apply vw_eqb_eq in X. subst. exact I.
Qed.

Section Hist.
Variables (E D H : list Z -> list Z -> list Z).

Lemma bool_of : forall b b' : bool, (b' = true -> b = true) -> (b' = false -> b = false) -> b = b'.
Proof. intros [] []; intuition congruence. Qed.

Lemma run_cmd_move : forall k s rc s', twoway (s_c s) = false -> k <> CUnexpected -> run_cmd E D H k s = (rc, s') ->
  twoway (s_c s') = false /\ In (ev_of (k, rc), st (s_c s')) (moves (st (s_c s))).
Proof.
  intros k s rc s' TW N R. unfold moves.
  destruct k as [|w|w|l|look|a cl sv w|cl sv w|]; cbn [run_cmd] in *; unfold ev_of; cbn [fst snd].
  - destruct (read_request_type D (s_c s)) as [t c] eqn:T. inversion R; subst.
    pose proof (skel_sound E D H OReadType (s_c s)) as [K1 K2]. cbn [call] in K1, K2. rewrite T in K1, K2. cbn [fst snd] in K1, K2. rewrite TW in *.
    cbn [s_c]. split; [auto|]. apply in_or_app. left. apply in_map_iff. exists (rc, st c). auto.
  - destruct (test_step E D H (fun _ _ => true) s w TW rc s' (or_introl R)) as (A & b & B1 & B2 & B3). split; [auto|].
    apply in_or_app; right. apply in_or_app; left. apply in_map_iff. exists (b, st (s_c s')). split; [|auto]. cbn [fst snd]. do 2 f_equal.
    apply bool_of; unfold worked; cbn [fst snd]; intros; [apply B2|apply B3]; lia.
  - destruct (test_step E D H (fun _ _ => true) s w TW rc s' (or_intror R)) as (A & b & B1 & B2 & B3). split; [auto|].
    apply in_or_app; right. apply in_or_app; left. apply in_map_iff. exists (b, st (s_c s')). split; [|auto]. cbn [fst snd]. do 2 f_equal.
    apply bool_of; unfold worked; cbn [fst snd]; intros; [apply B2|apply B3]; lia.
  - destruct (start_step E D H s l rc s' TW R) as (A & b & B1 & B2 & B3). split; [auto|].
    do 2 (apply in_or_app; right). apply in_or_app; left. apply in_map_iff. exists (b, st (s_c s')). split; [|auto]. cbn [fst snd]. do 2 f_equal.
    apply bool_of; unfold worked; cbn [fst snd]; intros; [apply B2|apply B3]; lia.
  - destruct (fetch_step E D H (fun _ _ => true) (fun _ => true) s look rc s' TW R) as (A & b & B1 & B2 & B3). split; [auto|].
    do 3 (apply in_or_app; right). apply in_or_app; left. apply in_map_iff. exists (b, st (s_c s')). split; [|auto]. cbn [fst snd]. do 2 f_equal.
    apply bool_of; unfold worked; cbn [fst snd]; intros; [apply B2|apply B3]; lia.
  - destruct (stop_sessions E D H cl sv (s_c s) true a (s_tests s) w) as [[[r av] fs] c] eqn:X. inversion R; subst.
    destruct (stop_step E D H cl sv s a w rc av fs c TW X) as (A & b & B1 & B2 & B3). cbn [s_c]. split; [auto|].
    do 4 (apply in_or_app; right). apply in_map_iff. exists (b, st c). split; [|auto]. cbn [fst snd]. do 2 f_equal.
    apply bool_of; unfold worked; cbn [fst snd]; intros; [apply B2|apply B3]; lia.
  - destruct (stop_wait E D H cl sv (s_c s) true (s_tests s) w) as [[[[r av] er] fs] c] eqn:X. inversion R; subst.
    destruct (stop_wait_step E D H cl sv s w r av er fs c TW X) as (A & b & B1 & B2 & B3). cbn [s_c]. split; [auto|].
    do 4 (apply in_or_app; right). apply in_map_iff. exists (b, st c). split; [|auto]. cbn [fst snd]. do 2 f_equal.
    apply bool_of; unfold worked; cbn [fst snd]; destruct (r =? 0) eqn:Q; cbn; intros; try discriminate; [apply B2|apply B3]; lia.
  - congruence.
Qed.

Lemma unexpected_oneway : forall c, twoway c = false -> unexpected_request E H c = (ErrFATAL, c).
Proof. intros c TW. unfold unexpected_request. now rewrite TW. Qed.

Lemma serve_obeys : forall ks s v, twoway (s_c s) = false -> In (st (s_c s), v) reach ->
  obeys false v (fst (serve E D H ks s)).
Proof.
  induction ks as [|k ks IH]; intros s v TW R; [exact I|].
  cbn [serve].
  destruct (run_cmd E D H k s) as [rc s1] eqn:X. destruct (serve E D H ks s1) as [h s2] eqn:S. cbn [fst obeys].
  assert (F: forall v1, twoway (s_c s1) = false -> In (st (s_c s1), v1) reach -> obeys false v1 h).
  { intros v1 A B. specialize (IH s1 v1 A B). now rewrite S in IH. }
  assert (DK: k = CUnexpected \/ k <> CUnexpected) by (destruct k; auto; right; congruence).
  destruct DK as [->|N].
  - cbn [run_cmd] in X. rewrite (unexpected_oneway _ TW) in X. inversion X; subst. split.
    + intros W. exfalso. vm_compute in W. discriminate.
    + apply F; auto.
  - destruct (run_cmd_move k s rc s1 TW N X) as [A B]. destruct (reach_move _ _ _ _ R B) as [C1 C2]. split.
    + now apply ev_allowed_ok.
    + apply F; auto. now rewrite ev_note_ok.
Qed.

Lemma serve_from_start : forall ks s, twoway (s_c s) = false -> st (s_c s) = StRequest ->
  obeys false (mkView false None false) (fst (serve E D H ks s)).
Proof.
  intros ks s TW S. apply serve_obeys; auto. rewrite S.
  assert (K: known reach (StRequest, mkView false None false) = true) by (vm_compute; reflexivity).
  unfold known in K. rewrite existsb_exists in K. destruct K as [x [I X]]. apply vw_eqb_eq in X. now subst.
Qed.
End Hist.

(** ** A connection that is no longer valid *)

Section Dead.
Variables (E D H : list Z -> list Z -> list Z).

Lemma invalid_id : forall c, st c = 0 -> invalid c = c.
Proof. intros [] S. cbn in S. subst. reflexivity. Qed.

Lemma off_is : forall b c, st c = 0 -> is_st b c = false.
Proof. intros b c S. unfold is_st. rewrite S. now rewrite Z.land_0_r. Qed.

Lemma dead_write_stop : forall c a n ts, st c = 0 -> write_stop E H c a n ts = (ErrFATAL, ts, c).
Proof. intros c a n ts S. unfold write_stop. rewrite (off_is StRequest c S). reflexivity. Qed.

Lemma dead_read_type : forall c, st c = 0 -> read_request_type D c = (ReqInvalid, c).
Proof. intros c S. unfold read_request_type. rewrite (off_is StRequest c S). reflexivity. Qed.

Lemma dead_read_test : forall c a b d, st c = 0 -> read_test_request D H c a b d = (ErrFATAL, None, CNTRL_FAILURE, c).
Proof. intros c a b d S. unfold read_test_request. now rewrite off_is. Qed.

Lemma dead_write_accept : forall c a p q, st c = 0 -> write_accept E H c a p q = (ErrFATAL, c).
Proof. intros c a p q S. unfold write_accept. now rewrite off_is. Qed.

Lemma dead_finish : forall w a x rs f c, st c = 0 -> x < ErrWARNING -> exists y z, stop_finish w x a rs f c = (y, z, f, c) /\ y < ErrWARNING.
Proof.
  intros w a x rs f c S X. unfold stop_finish. assert (M: (Z.min x (sw_free w) <? ErrWARNING) = true) by lia. rewrite M, (invalid_id _ S).
  eexists _, _. split; [reflexivity|lia].
Qed.

Lemma dead_step : forall k s rc s', twoway (s_c s) = false -> st (s_c s) = 0 -> run_cmd E D H k s = (rc, s') ->
  worked (k, rc) = false /\ s_c s' = s_c s.
Proof.
  intros k s rc s' TW S R. destruct k as [|w|w|l|look|a cl sv w|cl sv w|]; cbn [run_cmd] in R; unfold worked; cbn [fst snd].
  - rewrite (dead_read_type _ S) in R. inversion R; subst. auto.
  - unfold process_test_request in R. rewrite (dead_read_test _ _ _ _ S) in R. inversion R; subst. split; reflexivity.
  - unfold process_test_request_tw, refuse in R. rewrite (dead_read_test _ _ _ _ S), (dead_write_accept _ _ _ _ S) in R. inversion R; subst. split; reflexivity.
  - unfold process_start, read_start in R. rewrite (off_is StStartSessions _ S) in R. cbn in R. inversion R; subst. rewrite (invalid_id _ S). split; reflexivity.
  - unfold process_fetch, read_fetch in R. rewrite (off_is StFetchSession _ S) in R. cbn in R. inversion R; subst. cbn [s_c]. rewrite (invalid_id _ S). split; reflexivity.
  - destruct (stop_sessions E D H cl sv (s_c s) true a (s_tests s) w) as [[[r av] fs] c] eqn:X. inversion R; subst. cbn [s_c].
    unfold stop_sessions in X. rewrite TW in X. destruct (stop_send false (s_tests s) ErrOK a 0) as [[[e1 a1] n1] t1].
    destruct (e1 <? ErrWARNING) eqn:E1.
    { destruct (dead_finish w a1 e1 true [] (s_c s) S ltac:(lia)) as (y & z & F & L). rewrite F in X. inversion X; subst. split; [lia|reflexivity]. }
    rewrite (dead_write_stop _ _ _ _ S) in X. 
    assert (M: (Z.min ErrFATAL e1 <? ErrWARNING) = true) by (unfold ErrFATAL, ErrWARNING in *; lia). rewrite M in X.
    assert (M2: (Z.min (sw_recv w) (Z.min ErrFATAL e1) <? ErrWARNING) = true) by lia. rewrite M2 in X.
    match type of X with stop_finish _ ?x ?aa ?r ?f _ = _ => destruct (dead_finish w aa x r f (s_c s) S ltac:(lia)) as (y & z & F & L) end.
    rewrite F in X. inversion X; subst. split; [lia|reflexivity].
  - destruct (stop_wait E D H cl sv (s_c s) true (s_tests s) w) as [[[[r av] er] fs] c] eqn:X. inversion R; subst. cbn [s_c].
    unfold stop_wait in X. rewrite (dead_read_type _ S), TW in X. cbn [negb andb] in X. change (ReqInvalid =? 3) with false in X. cbn [andb orb] in X.
    change (ReqInvalid =? ReqSockClose) with false in X. change (ReqInvalid =? ReqSockIntr) with false in X. cbn [orb] in X.
    unfold wait_finish in X. change (ErrFATAL <? ErrWARNING) with true in X. change (ErrWARNING <=? ErrFATAL) with false in X. cbn [andb] in X.
    assert (M: (Z.min ErrFATAL (sw_free w) <? ErrWARNING) = true) by (unfold ErrFATAL, ErrWARNING; lia). rewrite M, (invalid_id _ S) in X.
    inversion X; subst. split; reflexivity.
  - rewrite (unexpected_oneway E H _ TW) in R. inversion R; subst. split; reflexivity.
Qed.

Lemma dead_history : forall ks s, twoway (s_c s) = false -> st (s_c s) = 0 ->
  Forall (fun e => worked e = false) (fst (serve E D H ks s)) /\ s_c (snd (serve E D H ks s)) = s_c s.
Proof.
  induction ks as [|k ks IH]; intros s TW S; cbn [serve]; [split; [constructor|reflexivity]|].
  destruct (run_cmd E D H k s) as [rc s1] eqn:X. destruct (dead_step _ _ _ _ TW S X) as [A B].
  assert (TW1: twoway (s_c s1) = false) by congruence. assert (S1: st (s_c s1) = 0) by congruence.
  specialize (IH s1 TW1 S1). destruct (serve E D H ks s1) as [h s2]. cbn [fst snd] in *. destruct IH. split; [constructor; auto|congruence].
Qed.
End Dead.
