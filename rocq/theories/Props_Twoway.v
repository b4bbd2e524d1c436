(** C70 to C73: the client's end of two-way sessions *)
From Coq Require Import ZArith List Bool Lia ZifyBool ZifyNat.
From Verif Require Import Base BaseLemmas Arith_Model Time_Model Wire_Model Wire_Spec Control_Model Control_Spec Packet_Model Sender_Model Sender_Spec Sender_Proofs Receiver_Model Receiver_Spec Props_Receiver
  Reflector_Model Reflector_Spec Reflector_Proofs Props_Reflector
  Twoway_Model Twoway_Spec Twoway_Proofs Twoway_Inv Twoway_Run Twoway_Run2 Twoway_End Twoway_Accept Toy.
Import ListNotations.
Open Scope Z_scope.

Local Lemma octs_tail : forall m o, octs_at m (o + 1) 1 = skipn 1 (octs_at m o 2).
Proof. intros m o. unfold octs_at. rewrite skipn_firstn_comm, skipn_more. reflexivity. Qed.

Section P.
Variable E D : list Z -> list Z -> list Z.
Variable H : list Z -> list Z -> list Z.
Variable mode : Z.
Variable p : protection.
Variable ak rk hk : list Z.
Variable start timeout npackets : Z.
Variable delta : nat -> Z.
Variable len : nat.
Local Notation session := (tw_session E D H mode p len start timeout npackets delta).
Local Notation run := (run_tw E D H mode ak rk hk start timeout npackets delta len).
Local Notation finish := (t_finish start timeout npackets delta).
Local Notation reflect := (run_reflector E D H mode ak rk hk len).

Local Lemma facts : forall es, session -> Forall (tenv_ok p len) es -> tpost D H ak rk hk start timeout npackets delta len p es (run es).
Proof. intros es (BC & DL & DG & DO & PM & LN & OK & NP) F. exact (run_ok E D H mode ak rk hk start timeout npackets delta len p BC DG DL DO PM LN OK es NP F). Qed.
Local Lemma gooden : forall es, session -> Forall (tenv_ok p len) es ->
  exists b f w skip, goode D H ak rk hk start timeout npackets delta len p es b f w (tw_records (run es)) (tw_sentlog (run es)) skip /\ map fst skip = tw_skiplog (run es).
Proof.
  intros es SS F. pose proof (facts es SS F) as P. destruct (run es) as [st|st|st recs|st]; cbn [tpost tw_records tw_sentlog tw_skiplog] in *.
  - destruct P as (b & G & _). eexists b, _, _, (t_skip st). split; [exact G|reflexivity].
  - destruct P as (b & f & G & _). eexists b, f, _, (t_skip st). split; [exact G|reflexivity].
  - destruct P as (b & f & w & G). exists b, f, w, (t_skip st). split; [exact G|reflexivity].
  - destruct P as (b & f & G). eexists b, f, _, (t_skip st). split; [exact G|reflexivity].
Qed.

(** C70: whatever happens, every packet handed to the network has its number, the size of the session, the clock's time
    and a right code, is sent not before its scheduled time, and not later than the loss timeout after it; no packet
    that the operating system has taken is sent a second time. *)
Theorem C70_requests : forall es, session -> Forall (tenv_ok p len) es ->
  Forall (request_good D H p ak hk start timeout npackets delta len) (tw_sentlog (run es)) /\
  NoDup (map s_seq (filter (fun s => was_sent (s_res s)) (tw_sentlog (run es)))).
Proof.
  intros es SS F. destruct (gooden es SS F) as (b & f & w & skip & G & _).
  split; [exact (g_out _ _ _ _ _ _ _ _ _ _ _ _ _ _ _ _ _ _ _ _ _ G)|exact (g_once _ _ _ _ _ _ _ _ _ _ _ _ _ _ _ _ _ _ _ _ _ G)].
Qed.

(** and every record, at any time during the test, is either that of a packet sent whose loss timeout has passed (or
    the end was requested), or says what an authentic reply to a packet of the session says. *)
Theorem C70_records : forall es, session -> Forall (tenv_ok p len) es ->
  Forall (fun r => (tw_is_lost r = true /\ lost_good start timeout delta (tw_sentlog (run es)) (map te_clock es) (map te_usr2 es) r) \/
                   (tw_is_lost r = false /\ reply_good D H p rk hk (tw_sentlog (run es)) (tw_skiplog (run es)) es r)) (tw_records (run es)).
Proof.
  intros es SS F. destruct (gooden es SS F) as (b & f & w & skip & G & X). pose proof (g_recs _ _ _ _ _ _ _ _ _ _ _ _ _ _ _ _ _ _ _ _ _ G) as Y. rewrite X in Y. exact Y.
Qed.

(** likewise when the test is over and the remaining packets have been given up *)
Theorem C70_records_end : forall es rc0 cl u int, session -> Forall (tenv_ok p len) es -> reading_ok cl ->
  Forall (fun r => (tw_is_lost r = true /\ lost_good start timeout delta (tw_sentlog (run es)) (map te_clock es ++ [cl]) (map te_usr2 es ++ [u]) r) \/
                   (tw_is_lost r = false /\ reply_good D H p rk hk (tw_sentlog (run es)) (tw_skiplog (run es)) es r)) (fst (finish rc0 cl u int (run es))).
Proof.
  intros es rc0 cl u int SS F RO. pose proof (facts es SS F) as P. destruct SS as (BC & DL & DG & DO & PM & LN & OK & NP).
  destruct (finish_ok D H ak rk hk start timeout npackets delta len p DO LN OK es rc0 cl u int (run es) P RO) as (b & f & w & G).
  pose proof (g_recs _ _ _ _ _ _ _ _ _ _ _ _ _ _ _ _ _ _ _ _ _ G) as Y. destruct (run es); exact Y.
Qed.

(** From end to end: if the network delivers a packet of the client to the reflector of the same session, and what the
    reflector sends in answer is what a record is made from, then the record has the number of the packet, the
    client's clock at its sending, the reflector's clock at its reception, the TTL there, the reflector's number, the
    reflector's clock at the sending of the reply, the client's clock at its reception and the TTL of the reply. *)
Theorem C70_measured : forall es s fes fst' f known ttl1 rc rerr rsy new rp c ttl2 r,
  session -> Forall (tenv_ok p len) es -> In s (tw_sentlog (run es)) ->
  reflect fes = FMore fst' -> fe_rx f = FxData true known (s_pkt s) ttl1 -> fe_clock f = Some (rc, rerr, rsy) -> clock_ok rc ->
  Forall (fun a => match fa_clock a with Some (c, _, _) => clock_ok c | None => True end) (fe_sends f) ->
  flog (reflect (fes ++ [f])) = f_log fst' ++ new -> In rp new ->
  tells p (reply_clear D p rk (rp_pkt rp)) c ttl2 r ->
  r_seq (tw_sent r) = s_seq s /\ owptime (r_send (tw_sent r)) = time_of (s_time s) /\
  owptime (r_recv (tw_sent r)) = time_of rc /\ r_ttl (tw_sent r) = ttl1 mod 256 /\
  r_seq (tw_refl r) = f_i fst' mod 2^32 /\
  (exists a ac aerr asy, In a (fe_sends f) /\ fa_clock a = Some (ac, aerr, asy) /\ owptime (r_send (tw_refl r)) = time_of ac) /\
  owptime (r_recv (tw_refl r)) = time_of c /\ r_ttl (tw_refl r) = ttl2.
Proof.
  intros es s fes fst' f known ttl1 rc rerr rsy new rp c ttl2 r SS F IS R RX CK RC SC LG IN (T1 & T2 & T3 & T4 & T5 & T6 & T7 & T8).
  pose proof (proj1 (C70_requests es SS F)) as RG. rewrite Forall_forall in RG. destruct (RG s IS) as (_ & LN' & _ & G1 & G2 & _).
  destruct SS as (BC & DL & DG & DO & PM & LN & OK & NP).
  destruct (C41_mirrors E D H mode p ak rk hk len fes f fst' BC DL DG PM LN R) as (new' & N1 & N2).
  rewrite LG in N1. apply app_inv_head in N1. subst new'. rewrite Forall_forall in N2.
  destruct (N2 rp IN) as (k' & data & ttl' & rc' & rerr' & rsy' & X1 & X2 & _ & X4 & X5).
  rewrite RX in X1. assert (data = s_pkt s) by congruence. assert (ttl' = ttl1) by congruence. subst data ttl'.
  rewrite CK in X2. assert (rc' = rc) by congruence. subst rc'. clear X1 X2.
  specialize (X5 ltac:(lia)). rewrite firstn_all2 in X5 by lia. cbv zeta in X5.
  destruct X5 as (_ & (M1 & M2 & M3 & M4 & M5 & _) & _ & _ & V1 & a & ac & aerr & asy & A1 & A2 & A3 & A4 & _).
  rewrite Forall_forall in SC. specialize (SC a A1). rewrite A2 in SC.
  rewrite T1, T2, T3, T4, T5, T6, T7, T8. cbn [spec_ts owptime].
  unfold field in *. rewrite M2, M3. split; [exact G1|]. split; [exact G2|]. split; [exact (V1 RC)|]. split; [exact M5|]. split; [exact M1|].
  split; [|auto]. exists a, ac, aerr, asy. auto.
Qed.

(** C71: no packet is recorded both as lost and as received, nor as lost twice; neither during the test nor after it *)
Theorem C71_exclusive : forall es q, session -> Forall (tenv_ok p len) es ->
  (tw_lost_of q (tw_records (run es)) <= 1)%nat /\ (tw_lost_of q (tw_records (run es)) = 0%nat \/ tw_received_of q (tw_records (run es)) = 0%nat).
Proof.
  intros es q SS F. destruct (gooden es SS F) as (b & f & w & skip & G & _). exact (core_exclusive _ _ _ _ _ _ _ _ _ (g_core _ _ _ _ _ _ _ _ _ _ _ _ _ _ _ _ _ _ _ _ _ G) q).
Qed.
Theorem C71_exclusive_end : forall es rc0 cl u int q, session -> Forall (tenv_ok p len) es -> reading_ok cl ->
  let recs := fst (finish rc0 cl u int (run es)) in
  (tw_lost_of q recs <= 1)%nat /\ (tw_lost_of q recs = 0%nat \/ tw_received_of q recs = 0%nat).
Proof.
  intros es rc0 cl u int q SS F RO. cbv zeta. pose proof (facts es SS F) as P. destruct SS as (BC & DL & DG & DO & PM & LN & OK & NP).
  destruct (finish_ok D H ak rk hk start timeout npackets delta len p DO LN OK es rc0 cl u int (run es) P RO) as (b & f & w & G).
  exact (core_exclusive _ _ _ _ _ _ _ _ _ (g_core _ _ _ _ _ _ _ _ _ _ _ _ _ _ _ _ _ _ _ _ _ G) q).
Qed.

(** C72, in part: when the test has come to its end, every packet the operating system has taken has a record, provided
    that sendto was never interrupted; that a reply was waited for with success at least once (flush_rc is set), or the
    uninitialised variable happens to be 0; that the clock works; and that the end was requested by the other side
    (with a timeout that is not 0), or the timeouts of all packets are over. *)
Theorem C72_all_recorded_partial : forall es st rc0 cur err sy u int s,
  session -> Forall (tenv_ok p len) es -> Forall (fun e => te_send e <> TSIntr) es ->
  run es = TEnd st -> t_rc st <> None \/ rc0 = true -> reading_ok (Some (cur, err, sy)) ->
  (u = Some 0%nat /\ 0 < ns_of timeout) \/
  ((u = None \/ 0 < ns_of timeout) /\
   (forall s, In s (t_out st) -> was_sent (s_res s) = true -> ns (s_time s) + ns_of timeout < ns cur) /\
   (forall q, In q (map fst (t_skip st)) -> rdue start delta q + ns_of timeout < ns cur)) ->
  In s (t_out st) -> was_sent (s_res s) = true ->
  let recs := fst (finish rc0 (Some (cur, err, sy)) u int (run es)) in
  (1 <= tw_lost_of (s_seq s) recs + tw_received_of (s_seq s) recs)%nat.
Proof.
  intros es st rc0 cur err sy u int s SS F NI R RC RO X IS WS. cbv zeta. pose proof (facts es SS F) as P. rewrite R in *. cbn [tpost] in P.
  destruct SS as (BC & DL & DG & DO & PM & LN & OK & NP). destruct P as (b & f & G & W).
  pose proof (g_core _ _ _ _ _ _ _ _ _ _ _ _ _ _ _ _ _ _ _ _ _ G) as C. pose proof (g_disj _ _ _ _ _ _ _ _ _ _ _ _ _ _ _ _ _ _ _ _ _ G s IS WS) as DJ.
  destruct RO as (CO & NZ & HE). unfold t_finish. destruct W as [[W1 W2]|[W1 W2]].
  - replace (match t_rc st with None => rc0 | Some over => negb over end) with true by (destruct (t_rc st) as [[|]|]; [congruence|reflexivity|destruct RC; congruence]).
    fold (rts_of cur err sy).
    destruct (flush_all start timeout npackets delta OK b f _ _ _ _ u (rts_of cur err sy) cur C W1 CO (rts_mult cur err sy HE)
      (g_sent _ _ _ _ _ _ _ _ _ _ _ _ _ _ _ _ _ _ _ _ _ G NI) X) as (b' & w' & recs' & [Y|[Y _]] & C' & L'); rewrite Y; cbn [fst];
      exact (past_recorded start npackets delta b' f w' recs' _ _ s C' L' IS WS DJ).
  - rewrite W2. cbn [negb fst]. rewrite W1 in C. pose proof (c_f _ _ _ _ _ _ _ _ _ C) as CF. cbn [length] in CF.
    exact (past_recorded start npackets delta b f [] _ _ _ s C ltac:(lia) IS WS DJ).
Qed.

(** C73, in part: for sessions without padding, what the reflector of the same session sends in answer to a packet of
    the client is accepted and recorded: if the client is waiting for a reply, the next packet is not to be sent within
    a millisecond, the packet has no record yet, its loss timeout has not passed and nobody ends the test. *)
Theorem C73_own_replies_partial : forall es st e c err sy ttl2 s fes fst' f known ttl1 rc rerr rsy new rp,
  session -> len = req_pad p -> Forall (tenv_ok p len) es -> run es = TGo st -> t_recv st = true ->
  In s (t_out st) -> was_sent (s_res s) = true ->
  reflect fes = FMore fst' -> fe_rx f = FxData true known (s_pkt s) ttl1 -> fe_clock f = Some (rc, rerr, rsy) ->
  flog (reflect (fes ++ [f])) = f_log fst' ++ new -> In rp new ->
  tenv_ok p len e -> te_stop1 e = false -> te_stop2 e = false -> te_clock e = Some (c, err, sy) -> te_usr2 e = None ->
  te_rx e = TxData true (rp_pkt rp) ttl2 ->
  tw_lost_of (s_seq s) (t_recs st) = 0%nat -> tw_received_of (s_seq s) (t_recs st) = 0%nat ->
  ns c <= ns (s_time s) + ns_of timeout ->
  npackets <= t_i st + 1 \/ ns (t_cur st) + 10^6 <= tw_sched start delta (t_i st + 1) ->
  exists st' lost r, run (es ++ [e]) = TGo st' /\ t_recs st' = t_recs st ++ lost ++ [r] /\ Forall (fun r => tw_is_lost r = true) lost /\
    r_seq (tw_sent r) = s_seq s /\ tells p (reply_clear D p rk (rp_pkt rp)) c ttl2 r /\ tw_is_lost r = false.
Proof.
  intros es st e c err sy ttl2 s fes fst' f known ttl1 rc rerr rsy new rp SS LE F R RV IS WS FR RX CK LG IN EO S1 S2 CE U RE L0 R0 TM HU.
  pose proof (proj1 (C70_requests es SS F)) as RG. rewrite R in RG. cbn [tw_sentlog] in RG. rewrite Forall_forall in RG. destruct (RG s IS) as (_ & LN' & _ & G1 & _ & G3 & _).
  pose proof (facts es SS F) as P. rewrite R in P. destruct SS as (BC & DL & DG & DO & PM & LN & OK & NP).
  destruct (C41_mirrors E D H mode p ak rk hk len fes f fst' BC DL DG PM LN FR) as (new' & N1 & N2).
  rewrite LG in N1. apply app_inv_head in N1. subst new'. rewrite Forall_forall in N2.
  destruct (N2 rp IN) as (k' & data & ttl' & rc' & rerr' & rsy' & X1 & X2 & _ & X4 & X5).
  rewrite RX in X1. assert (data = s_pkt s) by congruence. assert (ttl' = ttl1) by congruence. subst data ttl'. clear X1 X2.
  specialize (X5 ltac:(lia)). rewrite firstn_all2 in X5 by lia. cbv zeta in X5.
  destruct X5 as (_ & (M1 & M2 & M3 & M4 & M5 & M6 & _) & LRP & AU & _ & a & ac & aerr & asy & _ & _ & _ & _ & A5).
  rewrite LE in LRP.
  assert (RL: resp_len mode len = at_pad (reply_pos p)).
  { unfold resp_len. rewrite (proj1 (tw_size mode p PM)), (proj2 (tw_size mode p PM)), LE. clear. destruct p; cbn; lia. }
  assert (LX: length (rp_pkt rp) = at_pad (reply_pos p)) by (rewrite LRP; clear; destruct p; reflexivity).
  assert (SZ: (resp_len mode len <= length (rp_pkt rp))%nat) by (rewrite RL, LX; apply Nat.le_refl).
  assert (NC: norm (t_cur st)).
  { unfold run_tw in R. destruct (npackets <=? 0); [discriminate|]. refine (loop_cur E D H mode ak rk hk start timeout npackets delta len p es _ st _ F R). red. cbn. lia. }
  assert (ZS: field (reply_clear D p rk (rp_pkt rp)) (at_serr (reply_pos p) + 1) 1 <> 0).
  { intros Y. apply G3. rewrite <- Y. unfold field. f_equal. rewrite !octs_tail, M4. reflexivity. }
  destruct (accept E D H mode ak rk hk start timeout npackets delta len p DL DO PM LN OK es st e c err sy (rp_pkt rp) ttl2 s P NC RV EO S1 S2 CE U RE
    (or_introl SZ) AU ZS A5 IS WS ltac:(unfold field; rewrite M2; symmetry; exact G1) L0 R0 TM HU) as (st' & lost & r & Q1 & Q2 & Q3 & Q4 & Q5).
  exists st', lost, r. split; [|split; [exact Q2|split; [exact Q3|split; [|auto]]]].
  - eapply run_snoc; eassumption.
  - rewrite (proj1 Q4). unfold field. rewrite M2. exact G1.
Qed.

(** Refuted for every session with padding: the client expects replies that are larger than its packets by the
    difference of the headers, the reflector sends replies of the size of the packets (as RFC 5357 has it).  Unless
    errno happens to be EINTR the first reply ends the test, and it is not recorded. *)
Theorem C73_own_replies_refuted : forall es st e ttl2 s fes fst' f known ttl1 rc rerr rsy new rp,
  session -> (req_pad p < len)%nat -> Forall (tenv_ok p len) es -> run es = TGo st -> t_recv st = true ->
  In s (t_out st) -> was_sent (s_res s) = true ->
  reflect fes = FMore fst' -> fe_rx f = FxData true known (s_pkt s) ttl1 -> fe_clock f = Some (rc, rerr, rsy) ->
  flog (reflect (fes ++ [f])) = f_log fst' ++ new -> In rp new ->
  te_stop1 e = false -> te_eintr e = false -> te_rx e = TxData true (rp_pkt rp) ttl2 ->
  npackets <= t_i st + 1 ->
  exists st', run (es ++ [e]) = TEnd st' /\ t_recs st' = t_recs st.
Proof.
  intros es st e ttl2 s fes fst' f known ttl1 rc rerr rsy new rp SS LE F R RV IS WS FR RX CK LG IN S1 EI RE HU.
  pose proof (proj1 (C70_requests es SS F)) as RG. rewrite R in RG. cbn [tw_sentlog] in RG. rewrite Forall_forall in RG. destruct (RG s IS) as (_ & LN' & _ & G1 & _ & G3 & _).
  destruct SS as (BC & DL & DG & DO & PM & LN & OK & NP).
  destruct (C41_mirrors E D H mode p ak rk hk len fes f fst' BC DL DG PM LN FR) as (new' & N1 & N2).
  rewrite LG in N1. apply app_inv_head in N1. subst new'. rewrite Forall_forall in N2.
  destruct (N2 rp IN) as (k' & data & ttl' & rc' & rerr' & rsy' & X1 & X2 & _ & X4 & X5).
  rewrite RX in X1. assert (data = s_pkt s) by congruence. assert (ttl' = ttl1) by congruence. subst data ttl'. clear X1 X2.
  specialize (X5 ltac:(lia)). rewrite firstn_all2 in X5 by lia. cbv zeta in X5.
  destruct X5 as (_ & _ & M7 & _).
  assert (SH: (length (rp_pkt rp) < resp_len mode len)%nat).
  { unfold resp_len. rewrite (proj1 (tw_size mode p PM)), (proj2 (tw_size mode p PM)).
    rewrite M7. clear - LE. destruct p; cbn [reply_pos at_pad req_pad] in *; lia. }
  eexists. split; [eapply run_snoc; [exact R|]; refine (short_ends E D H mode ak rk hk start timeout npackets delta len st e (rp_pkt rp) ttl2 (t_win st) RV S1 _ RE EI SH)|reflexivity].
  unfold t_hurry. replace (t_i st <? npackets - 1) with false by lia. reflexivity.
Qed.

(** likewise for any datagram that is too short, whoever sent it: nothing about its source is looked at (C39 for the
    client of a two-way session) *)
Theorem C39_twoway_refuted : forall es st e data ttl, run es = TGo st -> t_recv st = true -> npackets <= t_i st + 1 ->
  te_stop1 e = false -> te_eintr e = false -> te_rx e = TxData true data ttl -> (length data < resp_len mode len)%nat ->
  exists st', run (es ++ [e]) = TEnd st' /\ t_recs st' = t_recs st.
Proof.
  intros es st e data ttl R RV HU S1 EI RE SH.
  eexists. split; [eapply run_snoc; [exact R|]; refine (short_ends E D H mode ak rk hk start timeout npackets delta len st e data ttl (t_win st) RV S1 _ RE EI SH)|reflexivity].
  unfold t_hurry. replace (t_i st <? npackets - 1) with false by lia. reflexivity.
Qed.
End P.
Print Assumptions C70_requests.
Print Assumptions C70_records.
Print Assumptions C70_records_end.
Print Assumptions C70_measured.
Print Assumptions C71_exclusive.
Print Assumptions C71_exclusive_end.
Print Assumptions C72_all_recorded_partial.
Print Assumptions C73_own_replies_partial.
Print Assumptions C73_own_replies_refuted.
Print Assumptions C39_twoway_refuted.

(** ** concrete cases: an open session of three packets without padding, one per second from 1001 s on; the loss timeout
    is one second *)
Definition tw_demo := run_tw toyE toyE toyH 1 [] [] [] (secs 1000) (2^32) 3 (fun _ => 2^32) 14.
Definition tw_finish_demo := t_finish (secs 1000) (2^32) 3 (fun _ => 2^32).
Definition tsnd (t n : Z) (r : tsend) : tenv := mkTE false (Some ((t, n), 10, 1)) true false [] r TxFail true None.
Definition trcv (t n : Z) (x : trx) (ei : bool) : tenv := mkTE false (Some ((t, n), 10, 1)) true false [] TSOk x ei None.
Definition tstop : tenv := mkTE true None true false [] TSOk TxFail true None.
Example tw_demo_session : tw_session toyE toyE toyH 1 Plain 14 (secs 1000) (2^32) 3 (fun _ => 2^32).
Proof.
  split; [exact toy_cipher|]. split; [exact toy_blocks|]. split; [exact toy_digest|]. split; [|split; [reflexivity|split; [cbn; lia|split; [exact demo_session|lia]]]].
  intros k b O. unfold toyE. apply Forall_rev, O.
Qed.
Lemma tw_reading : forall t n, 0 < t < 2^30 -> 0 <= n < 10^9 -> reading_ok (Some ((t, n), 10, 1)).
Proof.
  intros t n A B. cbn [reading_ok fst snd]. split; [red; cbn [fst snd]; lia|]. split; [|lia]. intros X.
  rewrite Z.mod_small in X by lia. assert (0 <= n * 2^32 / 10^9) by (apply Z.div_pos; lia). lia.
Qed.

(** packet 0 is answered: sent at 1001.5 s, received at 1001.6 s, answered a microsecond later, the reply received at
    1001.7 s; packets 1 and 2 are lost; the next attempt to receive finds that all is over *)
Definition tw_req0 : list Z := match tw_sentlog (tw_demo [tsnd 1001 500000000 TSOk]) with s :: _ => s_pkt s | [] => [] end.
Definition fe_demo : fenv := mkFE CNone (FxData true true tw_req0 60) false CNone (Some ((1001, 600000000), 10, 1)) CNone
  [mkFA (Some ((1001, 600001000), 10, 1)) false SendOK].
Definition tw_rep0 : list Z := match flog (run_reflector toyE toyE toyH 1 [] [] [] 14 [fe_demo]) with r :: _ => rp_pkt r | [] => [] end.
Definition tw_es : list tenv := [tsnd 1001 500000000 TSOk; trcv 1001 700000000 (TxData true tw_rep0 61) false; trcv 1001 900000000 TxFail true;
  tsnd 1002 500000000 TSOk; trcv 1002 900000000 TxFail true; tsnd 1003 500000000 TSOk; trcv 1004 900000000 TxFail true].
Example tw_es_ok : Forall (tenv_ok Plain 14) tw_es.
Proof.
  repeat (apply Forall_cons || apply Forall_nil); (split; [apply tw_reading; lia|]); (split; [|reflexivity]); try exact I.
  cbn [te_rx trcv]. assert (X: forallb (fun b => (0 <=? b) && (b <? 256)) tw_rep0 = true) by (vm_compute; reflexivity).
  rewrite forallb_forall in X. apply Forall_forall. intros b Hb. specialize (X b Hb). unfold is_u8. lia.
Qed.
Example C70_example : match tw_demo tw_es with TEnd _ => True | _ => False end /\
  map (fun s => (s_seq s, length (s_pkt s))) (tw_sentlog (tw_demo tw_es)) = [(0, 14%nat); (1, 14%nat); (2, 14%nat)] /\
  map (fun r => (r_seq (tw_sent r), tw_is_lost r)) (tw_records (tw_demo tw_es)) = [(0, false); (1, true); (2, true)] /\
  map (fun r => (owptime (r_send (tw_sent r)), owptime (r_recv (tw_sent r)), r_ttl (tw_sent r), owptime (r_recv (tw_refl r)), r_ttl (tw_refl r)))
      (firstn 1 (tw_records (tw_demo tw_es))) = [(time_of (1001, 500000000), time_of (1001, 600000000), 60, time_of (1001, 700000000), 61)].
Proof. vm_compute. auto. Qed.
(** the hypotheses of [C70_measured] and [C73_own_replies_partial]: *)
Example C73_example : exists st, tw_demo [tsnd 1001 500000000 TSOk] = TGo st /\ t_recv st = true /\ map s_pkt (t_out st) = [tw_req0] /\
  ns (t_cur st) + 10^6 <= tw_sched (secs 1000) (fun _ => 2^32) (t_i st + 1) /\
  map rp_pkt (flog (run_reflector toyE toyE toyH 1 [] [] [] 14 [fe_demo])) = [tw_rep0] /\ length tw_rep0 = 41%nat.
Proof. eexists. split; [vm_compute; reflexivity|]. split; [reflexivity|]. split; [vm_compute; reflexivity|]. split; [vm_compute; discriminate|]. split; vm_compute; reflexivity. Qed.
(** stopped by the other side after packet 1 was sent: both packets without reply are recorded as lost *)
Definition tw_es1 : list tenv := [tsnd 1001 500000000 TSOk; trcv 1001 900000000 TxFail true; tsnd 1002 500000000 TSOk; tstop].
Example C72_example : (exists st, tw_demo tw_es1 = TEnd st /\ t_rc st = Some false) /\
  map (fun r => (r_seq (tw_sent r), tw_is_lost r)) (fst (tw_finish_demo true (Some ((1002, 600000000), 10, 1)) (Some 0%nat) false (tw_demo tw_es1))) = [(0, true); (1, true)].
Proof. split; [eexists; split; vm_compute; reflexivity|vm_compute; reflexivity]. Qed.

(** C72 refuted: (1) sendto was interrupted once, for packet 0: it is not sent again and remains "not sent" at the head
    of the queue, so that the packets after it are never recorded as lost, however long ago they were sent *)
Theorem C72_interrupted_refuted : exists es, Forall (tenv_ok Plain 14) es /\ exists st, tw_demo es = TEnd st /\
  map (fun s => (s_seq s, was_sent (s_res s))) (t_out st) = [(0, false); (1, true); (2, true)] /\
  Forall (fun s => ns (s_time s) + ns_of (2^32) < ns (9000, 0)) (t_out st) /\
  tw_finish_demo true (Some ((9000, 0), 10, 1)) None false (tw_demo es) = ([], MNormal).
Proof.
  exists [tsnd 1001 500000000 TSIntr; tsnd 1002 500000000 TSOk; trcv 1002 900000000 TxFail true; tsnd 1003 500000000 TSOk; trcv 1004 900000000 TxFail true].
  split.
  { repeat (apply Forall_cons || apply Forall_nil); (split; [apply tw_reading; lia|]); (split; [exact I|reflexivity]). }
  eexists. split; [vm_compute; reflexivity|]. split; [vm_compute; reflexivity|]. split; [repeat (apply Forall_cons || apply Forall_nil); vm_compute; reflexivity|]. vm_compute. reflexivity.
Qed.
Print Assumptions C72_interrupted_refuted.

(** (2) the test is stopped before the first attempt to receive has come to its end: the variable that tells whether
    lost packets remain was never set, and if it happens not to be 0, the packets sent are not recorded *)
Theorem C72_uninitialised_refuted : exists es, Forall (tenv_ok Plain 14) es /\ exists st, tw_demo es = TEnd st /\
  map (fun s => (s_seq s, was_sent (s_res s))) (t_out st) = [(0, true)] /\ t_rc st = None /\
  tw_finish_demo false (Some ((9000, 0), 10, 1)) (Some 0%nat) false (tw_demo es) = ([], MNormal) /\
  length (fst (tw_finish_demo true (Some ((9000, 0), 10, 1)) (Some 0%nat) false (tw_demo es))) = 1%nat.
Proof.
  exists [tsnd 1001 500000000 TSOk; tstop].
  split.
  { constructor; [split; [apply tw_reading; lia|split; [exact I|reflexivity]]|]. constructor; [|constructor]. split; [exact I|split; [exact I|reflexivity]]. }
  eexists. split; [vm_compute; reflexivity|]. split; [vm_compute; reflexivity|]. split; [reflexivity|]. split; vm_compute; reflexivity.
Qed.
Print Assumptions C72_uninitialised_refuted.

(** (3) the clock cannot be read at the end, or the timeout of the last packets is not over when the last attempt to
    receive fails: their fate is not recorded, although the session is marked as completed normally *)
Theorem C72_early_end_refuted : exists es, Forall (tenv_ok Plain 14) es /\ exists st, tw_demo es = TEnd st /\
  map (fun s => (s_seq s, was_sent (s_res s))) (t_out st) = [(0, true); (1, true); (2, true)] /\
  snd (tw_finish_demo true (Some ((1003, 700000000), 10, 1)) None false (tw_demo es)) = MNormal /\
  map (fun r => r_seq (tw_sent r)) (fst (tw_finish_demo true (Some ((1003, 700000000), 10, 1)) None false (tw_demo es))) = [0; 1].
Proof.
  exists (firstn 6 tw_es ++ [trcv 1003 600000000 (TxData true [] 0) false]).
  split.
  { apply Forall_app. split; [|constructor; [|constructor]; split; [apply tw_reading; lia|split; [constructor|reflexivity]]].
    pose proof tw_es_ok as X. rewrite <- (firstn_skipn 6 tw_es) in X. apply Forall_app in X. exact (proj1 X). }
  eexists. split; [vm_compute; reflexivity|]. split; [vm_compute; reflexivity|]. split; vm_compute; reflexivity.
Qed.
Print Assumptions C72_early_end_refuted.

(** a case of [C73_own_replies_refuted]: 27 octets of padding, owping's default; the reply has the 41 octets of the packet.
    It is recorded if errno is still EINTR (from the signal that started the test), otherwise it ends the test *)
Definition tw_pad := run_tw toyE toyE toyH 1 [] [] [] (secs 1000) (2^32) 1 (fun _ => 2^32) 41.
Definition tsnd_pad : tenv := mkTE false (Some ((1001, 500000000), 10, 1)) true false (repeat 7 27) TSOk TxFail true None.
Definition tw_req1 : list Z := match tw_sentlog (tw_pad [tsnd_pad]) with s :: _ => s_pkt s | [] => [] end.
Definition tw_rep1 : list Z := match flog (run_reflector toyE toyE toyH 1 [] [] [] 41 [mkFE CNone (FxData true true tw_req1 60) false CNone
  (Some ((1001, 600000000), 10, 1)) CNone [mkFA (Some ((1001, 600001000), 10, 1)) false SendOK]]) with r :: _ => rp_pkt r | [] => [] end.
Example C73_refuted_example : length tw_req1 = 41%nat /\ length tw_rep1 = 41%nat /\
  (match tw_pad [tsnd_pad] with TGo st => t_recv st = true | _ => False end) /\
  (match tw_pad [tsnd_pad; trcv 1001 700000000 (TxData true tw_rep1 61) true] with TGo st => length (t_recs st) = 1%nat | _ => False end) /\
  (match tw_pad [tsnd_pad; trcv 1001 700000000 (TxData true tw_rep1 61) false] with TEnd st => t_recs st = [] | _ => False end) /\
  tw_session toyE toyE toyH 1 Plain 41 (secs 1000) (2^32) 1 (fun _ => 2^32).
Proof.
  split; [vm_compute; reflexivity|]. split; [vm_compute; reflexivity|]. split; [vm_compute; reflexivity|]. split; [vm_compute; reflexivity|]. split; [vm_compute; reflexivity|].
  destruct tw_demo_session as (A & B & C & X & P & _ & R & _). repeat (split; [assumption|]). split; [cbn; lia|]. split; [|lia].
  destruct R as (R1 & R2 & R3 & R4). split; [exact R1|]. split; [exact R2|]. split; [lia|exact R4].
Qed.
