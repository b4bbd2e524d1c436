(** Proofs about the acceptance of test requests by a server (C23, C60). *)
From Coq Require Import ZArith List Bool Lia ZifyBool.
From Verif Require Import Base BaseLemmas Time_Model Sched_Model Wire_Model Wire_Spec Wire_Proofs Control_Model Control_Spec Control_Proofs Stop_Model Server_Model Server_Spec
  Control_Fixed Server_State.
Import ListNotations.
Open Scope Z_scope.

Lemma same_addr_eq : forall a b, same_addr a b = true -> sa_family a = sa_family b /\ sa_addr a = sa_addr b.
Proof.
  unfold same_addr. intros a b H. apply andb_true_iff in H. destruct H as [A B]. apply eqb_octets_spec in B.
  split; [|exact B]. destruct (sa_family a), (sa_family b); try discriminate; reflexivity.
Qed.

Section S.
Variable E D H : list Z -> list Z -> list Z.

Lemma read_test_confs : forall c al sl rc q a c', twoway c = false ->
  read_test_request D H c true al sl = (rc, Some q, a, c') -> q_conf_sender q || q_conf_receiver q = true.
Proof.
  intros c al sl rc q a c' TW R. unfold read_test_request in R. rewrite TW in R.
  destruct (negb _); [discriminate|].
  pose proof (recv_fixed D c 16 6) as F1.
  destruct (recv_blocks D c 16 6) as [[| |] c1]; try discriminate. cbn [snd] in F1.
  pose proof (rhm_check_fixed H (rhm_add c1 0 6) 96) as F2. pose proof (rhm_add_fixed c1 0 6) as F3.
  destruct (rhm_check H (rhm_add c1 0 6) 96) as [b c2]. cbn [snd] in F2.
  assert (T2: twoway c2 = false) by (unfold fixed in *; intuition congruence).
  destruct (negb b); [discriminate|].
  destruct (decode_preamble _ _ _ _ _) as [p| |] eqn:DP; try discriminate.
  destruct (negb _); [discriminate|]. destruct (negb _); [discriminate|]. destruct (negb al); [discriminate|].
  cbn [twoway or_st clr_st set_st] in R. rewrite T2 in R.
  destruct (read_slots D H _ _ _) as [[l|] c3]; [|discriminate].
  destruct (sl || _); [|discriminate].
  assert (Q: q_conf_sender q = p_conf_sender p /\ q_conf_receiver q = p_conf_receiver p) by (inversion R; subst; auto).
  destruct Q as [-> ->]. clear R. unfold decode_preamble in DP. rewrite T2 in DP. cbn [negb andb] in DP.
  destruct (negb _); [discriminate|].
  destruct (negb (byte 2 _ =? 0)) eqn:B2, (negb (byte 3 _ =? 0)) eqn:B3; cbn [negb andb] in DP; try discriminate;
  repeat match type of DP with (if ?x then _ else _) = _ => destruct x end; try discriminate; inversion DP; subst; reflexivity.
Qed.

(** What a server has accepted *)
Definition rightful (c : ctl) (e : session) : Prop :=
  q_conf_sender (se_req e) = negb (q_conf_receiver (se_req e)) /\ se_send e = q_conf_sender (se_req e) /\
  (ciphers c = false -> q_conf_sender (se_req e) = true ->
   sa_family (q_receiver (se_req e)) = sa_family (remote c) /\ sa_addr (q_receiver (se_req e)) = sa_addr (remote c)).

Lemma process_test_sessions : forall s w rc s', twoway (s_c s) = false -> process_test_request E D H s w = (rc, s') ->
  fixed (s_c s) (s_c s') /\
  ((s_sessions s' = s_sessions s /\ s_tests s' = s_tests s) \/
   (rc = ErrOK /\ exists e t, s_sessions s' = e :: s_sessions s /\ s_tests s' = t :: s_tests s /\ t_sid t = se_sid e /\ rightful (s_c s) e)).
Proof.
  intros s w rc s' TW P. unfold process_test_request in P.
  pose proof (read_test_fixed D H (s_c s) true (w_alloc w) (w_slots w)) as F.
  destruct (read_test_request D H (s_c s) true (w_alloc w) (w_slots w)) as [[[rc1 q] a] c1] eqn:R. cbn [snd] in F.
  destruct q as [q|]. 2:{ inversion P; subst; cbn; auto. }
  pose proof (read_test_confs _ _ _ _ _ _ _ TW R) as CF.
  assert (RF: forall x e, (fst (refuse E H c1 x e), mkSrv (snd (refuse E H c1 x e)) (s_tests s) (s_sessions s)) = (rc, s') ->
    fixed (s_c s) (s_c s') /\ ((s_sessions s' = s_sessions s /\ s_tests s' = s_tests s) \/
    (rc = ErrOK /\ exists e t, s_sessions s' = e :: s_sessions s /\ s_tests s' = t :: s_tests s /\ t_sid t = se_sid e /\ rightful (s_c s) e))).
  { intros x e X. inversion X; subst. cbn [s_c s_sessions s_tests]. split; [|auto]. unfold refuse. destruct (_ <=? _); [|exact F].
    cbn [snd]. eapply fixed_trans; [exact F|apply write_accept_fixed]. }
  destruct (negb (w_addrs w)); [eapply RF; eauto|].
  destruct (if q_conf_receiver q then w_sid w else Some (q_sid q)) as [sid|]; [|eapply RF; eauto].
  destruct (negb (w_sched w)); [eapply RF; eauto|].
  match type of P with match ?x with Some _ => _ | None => _ end = _ => destruct x as [[aa ee]|] eqn:P1 end; [eapply RF; eauto|].
  match type of P with match ?x with Some _ => _ | None => _ end = _ => destruct x as [[aa ee]|] eqn:P2 end; [eapply RF; eauto|].
  match type of P with match ?x with Some _ => _ | None => _ end = _ => destruct x as [[aa ee]|] eqn:P3 end; [eapply RF; eauto|].
  pose proof (write_accept_fixed E H c1 CNTRL_ACCEPT (w_port w) (Some sid)) as WF.
  destruct (write_accept E H c1 CNTRL_ACCEPT (w_port w) (Some sid)) as [rc2 c2]. cbn [snd] in WF.
  destruct (rc2 <? ErrOK).
  { inversion P; subst. cbn [s_c s_sessions s_tests]. split; [eapply fixed_trans; eauto|auto]. }
  inversion P; subst. cbn [s_c s_sessions s_tests]. split; [eapply fixed_trans; eauto|]. right. split; [reflexivity|].
  eexists _, _. split; [reflexivity|]. split; [reflexivity|]. split; [reflexivity|].
  unfold rightful. cbn [se_req se_send].
  destruct (q_conf_receiver q) eqn:CR.
  - destruct (q_conf_sender q) eqn:CS; [discriminate|]. repeat split; discriminate.
  - rewrite orb_false_r in CF. rewrite CF in *. split; [reflexivity|]. split; [reflexivity|]. intros CI _.
    assert (CI1: ciphers c1 = false) by (unfold ciphers in *; rewrite (proj1 F); exact CI).
    rewrite CI1 in P2. cbn [negb andb] in P2. destruct (negb (w_names w)); [discriminate|].
    destruct (negb (same_addr (remote c1) (q_receiver q))) eqn:SA; [discriminate|].
    apply negb_false_iff, same_addr_eq in SA. destruct F as (_ & _ & FR & _). rewrite FR in SA. intuition.
Qed.

Lemma process_tw_fixed : forall s w, fixed (s_c s) (s_c (snd (process_test_request_tw E D H s w))).
Proof.
  intros s w. unfold process_test_request_tw.
  pose proof (read_test_fixed D H (s_c s) true (w_alloc w) (w_slots w)) as F.
  destruct (read_test_request D H (s_c s) true (w_alloc w) (w_slots w)) as [[[rc1 q] a] c1] eqn:R. cbn [snd] in F.
  assert (RF: forall x e, fixed (s_c s) (snd (refuse E H c1 x e))).
  { intros x e. unfold refuse. destruct (_ <=? _); [|exact F]. cbn [snd]. eapply fixed_trans; [exact F|apply write_accept_fixed]. }
  destruct q as [q|]; [|apply RF].
  destruct (negb (w_addrs w)); [apply RF|]. destruct (w_sid w) as [sid|]; [|apply RF].
  destruct (policy_step w a) as [[? ?]|]; [apply RF|]. destruct (w_init w) as [[? ?]|]; [apply RF|]. destruct (w_hook w) as [[? ?]|]; [apply RF|].
  destruct (w_port w =? 0); [apply RF|].
  pose proof (write_accept_fixed E H c1 CNTRL_ACCEPT (w_port w) (Some sid)) as WF.
  destruct (write_accept E H c1 CNTRL_ACCEPT (w_port w) (Some sid)) as [rc2 c2]. cbn [snd] in WF.
  destruct (rc2 <? ErrOK); cbn [snd s_c]; eapply fixed_trans; eauto.
Qed.

(** a two-way request on a one-way connection is never accepted: on a one-way connection the same
    reading function serves both, so the request can only be a one-way one *)
Lemma process_tw_sessions : forall s w, s_sessions (snd (process_test_request_tw E D H s w)) = s_sessions s \/
  exists e, s_sessions (snd (process_test_request_tw E D H s w)) = e :: s_sessions s /\ se_send e = false.
Proof.
  intros s w. unfold process_test_request_tw.
  destruct (read_test_request D H (s_c s) true (w_alloc w) (w_slots w)) as [[[rc1 q] a] c1] eqn:R.
  destruct q as [q|]; [|left; reflexivity].
  destruct (negb (w_addrs w)); [left; reflexivity|]. destruct (w_sid w) as [sid|]; [|left; reflexivity].
  destruct (policy_step w a) as [[? ?]|]; [left; reflexivity|]. destruct (w_init w) as [[? ?]|]; [left; reflexivity|]. destruct (w_hook w) as [[? ?]|]; [left; reflexivity|].
  destruct (w_port w =? 0); [left; reflexivity|].
  destruct (write_accept E H c1 CNTRL_ACCEPT (w_port w) (Some sid)) as [rc2 c2].
  destruct (rc2 <? ErrOK); [left; reflexivity|]. right. eexists. split; reflexivity.
Qed.

Lemma process_start_fixed : forall s l, fixed (s_c s) (s_c (snd (process_start E D H s l))) /\ s_sessions (snd (process_start E D H s l)) = s_sessions s.
Proof.
  intros s l. unfold process_start. pose proof (read_start_fixed D H (s_c s)) as F. destruct (read_start D H (s_c s)) as [rc c1]. cbn [snd] in F.
  destruct (rc <? ErrOK); [split; [exact F|reflexivity]|].
  destruct (forallb _ _).
  - pose proof (write_start_ack_fixed E H c1 CNTRL_ACCEPT) as W. destruct (write_start_ack E H c1 CNTRL_ACCEPT) as [r c2]. cbn [snd] in W.
    destruct (r <? ErrOK); (split; [|reflexivity]); cbn [snd s_c]; eapply fixed_trans; eauto.
  - pose proof (write_start_ack_fixed E H c1 CNTRL_FAILURE) as W. destruct (write_start_ack E H c1 CNTRL_FAILURE) as [r c2]. cbn [snd] in W.
    split; [|reflexivity]. cbn [snd s_c]. eapply fixed_trans; eauto.
Qed.

Lemma send_outs_fixed : forall l c, fixed c (snd (send_outs E H c l)).
Proof.
  induction l as [|o l IH]; intros c; cbn [send_outs]; [apply fixed_refl|].
  assert (K: fixed c (snd (match o with
        | Chunk bs => let nb := (length bs / 16)%nat in send_blocks E (shm_add (set_msg c (put 0 bs (msg c))) 0 nb) 0 nb
        | Seal => send_blocks E (shm_digest H c 0) 0 1 | Broken => (IOShort, c) end))).
  { destruct o; cbv zeta; [|eapply fixed_trans; [apply shm_digest_fixed|apply send_fixed]|apply fixed_refl].
    eapply fixed_trans; [|apply send_fixed]. eapply fixed_trans; [|apply shm_add_fixed]. apply msg_fixed. }
  cbv zeta in K. destruct (match o with Chunk _ => _ | _ => _ end) as [[| |] c1]; cbn [snd] in *; auto.
  eapply fixed_trans; [exact K|apply IH].
Qed.

Lemma process_fetch_fixed : forall s look, fixed (s_c s) (s_c (snd (process_fetch E D H s look))) /\ s_sessions (snd (process_fetch E D H s look)) = s_sessions s.
Proof.
  intros s look. unfold process_fetch. pose proof (read_fetch_fixed D H (s_c s)) as F. destruct (read_fetch D H (s_c s)) as [[rc [[b e] sid]] c1]. cbn [snd] in F.
  destruct (rc <? ErrOK); [split; [exact F|reflexivity]|].
  assert (NG: forall a, fixed (s_c s) (snd (let (rc, c) := write_fetch_ack E H c1 a 0 0 0 0 in if rc <? ErrOK then (rc, invalid c) else (ErrWARNING, c)))).
  { intros a. pose proof (write_fetch_ack_fixed E H c1 a 0 0 0 0) as W. destruct (write_fetch_ack E H c1 a 0 0 0 0) as [r c2]. cbn [snd] in W.
    destruct (r <? ErrOK); cbn [snd]; eapply fixed_trans; eauto. }
  destruct (look b e sid) as [err| | |fin nx nsk nrec pre body].
  - destruct (err <? ErrOK); (split; [|reflexivity]); [exact F|apply NG].
  - split; [apply NG|reflexivity].
  - split; [apply NG|reflexivity].
  - pose proof (write_fetch_ack_fixed E H c1 CNTRL_ACCEPT fin nx nsk nrec) as W. destruct (write_fetch_ack E H c1 CNTRL_ACCEPT fin nx nsk nrec) as [r c2]. cbn [snd] in W.
    assert (F2: fixed (s_c s) c2) by (eapply fixed_trans; eauto).
    destruct (r <? ErrOK); [split; [exact F2|reflexivity]|]. destruct pre as [pre|]; [|split; [exact F2|reflexivity]].
    match goal with |- context [send_blocks E ?x 0 7] => pose proof (send_fixed E x 0 7) as S; assert (F3: fixed c2 x) by
      (eapply fixed_trans; [|apply shm_digest_fixed]; eapply fixed_trans; [|apply shm_add_fixed]; apply msg_fixed); destruct (send_blocks E x 0 7) as [[| |] c3] end;
      cbn [snd] in S; assert (F4: fixed (s_c s) c3) by (eapply fixed_trans; [exact F2|eapply fixed_trans; eauto]); try (split; [exact F4|reflexivity]).
    pose proof (send_outs_fixed body c3) as O. destruct (send_outs E H c3 body) as [[|] c4]; cbn [snd] in O; (split; [|reflexivity]); cbn [snd s_c];
      eapply fixed_trans; [exact F4|exact O|exact F4|exact O].
Qed.

Lemma run_cmd_sessions : forall k s, twoway (s_c s) = false -> fixed (s_c s) (s_c (snd (run_cmd E D H k s))) /\
  (s_sessions (snd (run_cmd E D H k s)) = s_sessions s \/
   exists e, s_sessions (snd (run_cmd E D H k s)) = e :: s_sessions s /\ (rightful (s_c s) e \/ se_send e = false)).
Proof.
  intros k s TW. destruct k; cbn [run_cmd].
  - pose proof (read_type_fixed D (s_c s)) as F. destruct (read_request_type D (s_c s)) as [t c]. auto.
  - destruct (process_test_request E D H s w) as [rc s'] eqn:P. cbn [snd]. destruct (process_test_sessions _ _ _ _ TW P) as [F [[A _]|[_ (e & t & A & _ & _ & R)]]]; [auto|]. split; [exact F|]. right. exists e. auto.
  - split; [apply process_tw_fixed|]. destruct (process_tw_sessions s w) as [A|(e & A & B)]; [auto|right; exists e; auto].
  - destruct (process_start_fixed s starts) as [A B]. auto.
  - destruct (process_fetch_fixed s look) as [A B]. auto.
  - pose proof (stop_fixed E D H clean save (s_c s) true aval (s_tests s) w) as F. destruct (stop_sessions E D H clean save (s_c s) true aval (s_tests s) w) as [[[? ?] ?] c]. auto.
  - pose proof (stop_wait_fixed E D H clean save (s_c s) true (s_tests s) w) as F. destruct (stop_wait E D H clean save (s_c s) true (s_tests s) w) as [[[[? ?] ?] ?] c]. auto.
  - pose proof (unexpected_fixed E H (s_c s)) as F. destruct (unexpected_request E H (s_c s)) as [rc c]. auto.
Qed.

Lemma rightful_fixed : forall c c' e, fixed c c' -> rightful c' e -> rightful c e.
Proof.
  unfold rightful, fixed, ciphers. intros c c' e (A & _ & B & _) (P & Q & R). rewrite A, B in *. auto.
Qed.

Lemma serve_sessions : forall ks s, twoway (s_c s) = false ->
  exists new, s_sessions (snd (serve E D H ks s)) = new ++ s_sessions s /\ Forall (fun e => rightful (s_c s) e \/ se_send e = false) new.
Proof.
  induction ks as [|k ks IH]; intros s TW; cbn [serve]; [exists []; auto|].
  destruct (run_cmd_sessions k s TW) as [F K]. destruct (run_cmd E D H k s) as [rc s1]. cbn [snd] in *.
  assert (TW1: twoway (s_c s1) = false) by (destruct F as (_ & X & _); congruence).
  destruct (IH s1 TW1) as (new & N1 & N2). destruct (serve E D H ks s1) as [h s2]. cbn [snd] in *.
  assert (N2': Forall (fun e => rightful (s_c s) e \/ se_send e = false) new).
  { eapply Forall_impl; [|exact N2]. intros e [A|A]; [left; eapply rightful_fixed; eauto|auto]. }
  destruct K as [K|(e & K & KR)].
  - exists new. rewrite N1, K. auto.
  - exists (new ++ [e]). rewrite N1, K, <- app_assoc. split; [reflexivity|]. apply Forall_app. split; [exact N2'|constructor; auto].
Qed.
End S.
