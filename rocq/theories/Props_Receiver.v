(** Property theorems C36-C39: the receiver of test packets.
    An execution of run_receiver is determined by the session parameters and by what the environment does:
    the first clock reading [cl], whether the first flush sees the stop signal [u], and then one event per
    passage of the main loop ([es]: signals, datagrams, clock readings). *)
From Coq Require Import ZArith List Bool Lia ZifyBool ZifyNat Sorted.
From Verif Require Import Base BaseLemmas Arith_Model Time_Model Time_Proofs Wire_Model Wire_Spec Wire_Proofs Control_Model Control_Spec Toy
  Packet_Model Packet_Proofs Sender_Spec Sender_Proofs Receiver_Model Receiver_Spec Receiver_Proofs Receiver_Run Receiver_Live.
Import ListNotations.
Open Scope Z_scope.
Ltac Zify.zify_post_hook ::= Z.div_mod_to_equations.

(** the records in the file after an execution *)
Definition recs_of (o : rstep) : list datarec :=
  match o with RGo st => r_recs st | ROver st => r_recs st | RErr recs => recs end.
(** ranges: clock readings are valid, datagrams consist of octets; a stop signal seen while losses are written
    is still seen by the test that follows *)
Definition environment (cl : option (tspec * Z * Z)) (es : list renv) : Prop :=
  reading_ok cl /\ Forall env_ok es /\ Forall (fun e => re_usr2 e <> None -> re_chk4 e <> CNone) es.

Lemma acct_never_both : forall b w recs q, 0 <= q -> acct b w recs -> classified q recs \/ lost_of q recs = 0%nat.
Proof. intros b w recs q Hq (A & B & _). destruct (Z.ltb_spec q b); [left; apply A; lia|right; apply B; lia]. Qed.

Lemma run_acct : forall D H mode ak hk start timeout npackets delta fudge, rsession_ok start timeout npackets delta ->
  (forall b, octets b -> octets (D ak b)) -> forall cl u es, reading_ok cl -> Forall env_ok es ->
  exists b w, acct b w (recs_of (run_receiver D H mode ak hk start timeout npackets delta fudge cl u es)) /\
    Forall (rok D H mode ak hk start timeout npackets delta es) (recs_of (run_receiver D H mode ak hk start timeout npackets delta fudge cl u es)).
Proof.
  intros D H mode ak hk start timeout npackets delta fudge OK DO cl u es RO EO.
  pose proof (run_ok D H mode ak hk start timeout npackets delta fudge OK DO cl u es RO EO) as P.
  destruct (run_receiver _ _ _ _ _ _ _ _ _ _ cl u es) as [st|st|recs]; cbn [run_post recs_of] in *.
  - destruct P as (b & _ & _ & _ & A & F & _). eauto.
  - destruct P as (b & A & F & _). eauto.
  - exact P.
Qed.

Section P.
Variable D : list Z -> list Z -> list Z.
Variable H : list Z -> list Z -> list Z.
Variable mode : Z.
Variable aeskey hmackey : list Z.
Variable start timeout npackets : Z.
Variable delta : nat -> Z.
Variable fudge : tspec.
Local Notation run := (run_receiver D H mode aeskey hmackey start timeout npackets delta fudge).

(** C36: while the receiver runs, every packet whose loss window is over at the last clock reading is
    classified, a packet with a lost record is classified and its window was over at some reading. *)
Theorem C36_during : rsession_ok start timeout npackets delta -> in_era start npackets delta -> (forall b, octets b -> octets (D aeskey b)) ->
  forall cl es st, environment cl es -> run cl None es = RGo st ->
  (forall q t er sy, last_clock cl es = Some (t, er, sy) -> 0 <= q < npackets -> expired start timeout delta q t ->
     classified q (r_recs st)) /\
  (forall q, (0 < lost_of q (r_recs st))%nat -> classified q (r_recs st) /\
     exists t er sy, In (Some (t, er, sy)) (cl :: map re_clock es) /\ expired start timeout delta q t).
Proof.
  intros OK ERA DO cl es st (RO & EO & CO) R.
  pose proof (run_ok D H mode aeskey hmackey start timeout npackets delta fudge OK DO cl None es RO EO) as P.
  pose proof (run_go_unseen D H mode aeskey hmackey start timeout npackets delta fudge cl es st R CO) as U.
  rewrite R in P. cbn [run_post] in P. destruct P as [b Inv]. pose proof Inv as (B0 & W & N & A & F & S & er & sy & L).
  pose proof A as (A1 & A2 & _). split.
  - intros q t er' sy' L' Hq X. rewrite L' in L. injection L as -> -> ->. apply A1.
    destruct (Z.ltb_spec q b); [lia|]. exfalso.
    refine (unexpired D H mode aeskey hmackey start timeout npackets delta OK DO ERA b cl None es st q RO EO Inv U _ X). lia.
  - intros q Hl.
    assert (Q: exists r, In r (r_recs st) /\ r_seq r = q /\ is_lost r = true).
    { unfold lost_of in Hl. destruct (filter _ (r_recs st)) as [|r l] eqn:Fi; [cbn in Hl; lia|].
      assert (I: In r (filter (fun r => (r_seq r =? q) && is_lost r) (r_recs st))) by (rewrite Fi; left; auto).
      apply filter_In in I. exists r. destruct I as [I1 I2]. split; [auto|]. destruct (Z.eqb_spec (r_seq r) q); [auto|discriminate]. }
    destruct Q as (r & I & Es & Lo). destruct (S U) as [S1 _].
    pose proof (proj1 (Forall_forall _ _) F r I) as Fr. unfold rok in Fr. rewrite Lo in Fr. destruct Fr as (Fr & _).
    split.
    + apply A1. destruct (Z.ltb_spec q b); [lia|]. rewrite A2 in Hl by lia. lia.
    + rewrite <- Es. exact (proj1 (Forall_forall _ _) S1 r I Lo).
Qed.

(** C36, at every moment, also when the receiver has ended normally or with an error: no packet has both kinds of
    record or two lost records; the lost records are in increasing order and carry the scheduled send time. *)
Theorem C36_always : rsession_ok start timeout npackets delta -> (forall b, octets b -> octets (D aeskey b)) ->
  forall cl u es, reading_ok cl -> Forall env_ok es ->
  let recs := recs_of (run cl u es) in
  (forall q, 0 <= q -> classified q recs \/ lost_of q recs = 0%nat) /\
  StronglySorted Z.lt (map r_seq (filter is_lost recs)) /\
  (forall r, In r recs -> is_lost r = true ->
     0 <= r_seq r < npackets /\ owptime (r_send r) = sched_stamp start delta (r_seq r) /\ r_ttl r = 255).
Proof.
  intros OK DO cl u es RO EO recs.
  destruct (run_acct D H mode aeskey hmackey start timeout npackets delta fudge OK DO cl u es RO EO) as (b & w & A & F). fold recs in A, F.
  split; [intros q Hq; eapply acct_never_both; eauto|]. split.
  - destruct A as (_ & _ & _ & _ & A & _). exact A.
  - intros r I Lo. pose proof (proj1 (Forall_forall _ _) F r I) as X. unfold rok in X. rewrite Lo in X. exact X.
Qed.

(** C36, at the end: a receiver that ends without having been told to stop has classified every packet. *)
Theorem C36_complete : rsession_ok start timeout npackets delta -> (forall b, octets b -> octets (D aeskey b)) ->
  forall cl es st, reading_ok cl -> Forall env_ok es ->
  Forall (fun e => re_chk1 e <> CUsr2 /\ re_chk2 e <> CUsr2 /\ re_chk3 e <> CUsr2 /\ re_chk4 e <> CUsr2) es ->
  run cl None es = ROver st -> forall q, 0 <= q < npackets -> classified q (r_recs st).
Proof.
  intros OK DO cl es st RO EO NS R q Hq.
  assert (E: r_win st = []).
  { clear Hq q. revert st NS EO R. induction es as [|e es IH] using rev_ind; intros st NS EO R.
    - unfold run_receiver in R. pose proof (start_ok D H mode aeskey hmackey start timeout npackets delta OK DO cl None RO) as P.
      destruct (r_start _ _ _ _ cl None); try discriminate. injection R as ->. apply P.
    - rewrite Forall_app in NS, EO. destruct NS as [N1 N2], EO as [E1 E2]. inversion N2 as [|? ? (C1 & C2 & C3 & C4) _]; subst.
      rewrite run_snoc in R. destruct (run cl None es) as [st0|st0|?] eqn:R0; try discriminate.
      + eapply pass_over_self; eauto.
      + eapply IH; eauto. }
  pose proof (run_ok D H mode aeskey hmackey start timeout npackets delta fudge OK DO cl None es RO EO) as P.
  rewrite R in P. cbn [run_post] in P. destruct P as (b & A & _ & B). rewrite (B E) in A. apply A. exact Hq.
Qed.

(** C37: at every moment every received record comes from a datagram from the sender's address that passed the
    integrity check; its fields are those of the packet and of the clock reading of that moment; the send time is within
    the timeout of the receive time and of the scheduled time (the latter up to 5 * 2^-32 s, from converting the
    schedule to nanoseconds and back). *)
Theorem C37_only_plausible : rsession_ok start timeout npackets delta -> (forall b, octets b -> octets (D aeskey b)) ->
  forall cl u es, reading_ok cl -> Forall env_ok es ->
  forall r, In r (recs_of (run cl u es)) -> is_lost r = false ->
  0 <= r_seq r < npackets /\
  within timeout (owptime (r_send r)) (owptime (r_recv r)) /\
  (exists x, (sched_stamp start delta (r_seq r) - x) mod 2^64 <= 5 /\ within timeout (owptime (r_send r)) x) /\
  exists e pay cur err sy, In e es /\ re_rx e = RxData true pay (r_ttl r) /\ re_clock e = Some (cur, err, sy) /\
    parse_packet D H mode aeskey hmackey pay = PPacket (r_seq r) (r_send r) true /\
    owptime (r_recv r) = (fst cur + 2208988800) mod 2^32 * 2^32 + snd cur * 2^32 / 10^9.
Proof.
  intros OK DO cl u es RO EO r I NL.
  destruct (run_acct D H mode aeskey hmackey start timeout npackets delta fudge OK DO cl u es RO EO) as (b & w & A & F).
  pose proof (proj1 (Forall_forall _ _) F r I) as X. unfold rok in X. rewrite NL in X.
  destruct X as (e & pay & cur & err & sy & X1 & X2 & X3 & X4 & X5 & X6 & X7 & X8).
  split; [exact X6|]. split; [exact X7|]. split; [exact X8|]. exists e, pay, cur, err, sy. auto.
Qed.

(** C37, conversely: a packet from the sender that passes the check, with a number of the session, a loss window not
    over at any reading so far, and send time within the bounds gets a record, if the receiver keeps running. *)
Theorem C37_plausible_recorded : rsession_ok start timeout npackets delta -> (forall b, octets b -> octets (D aeskey b)) ->
  forall cl es e st pay ttl seq send cur er sy, environment cl (es ++ [e]) -> run cl None (es ++ [e]) = RGo st ->
  re_rx e = RxData true pay ttl -> parse_packet D H mode aeskey hmackey pay = PPacket seq send true -> re_clock e = Some (cur, er, sy) ->
  0 <= seq < npackets ->
  (forall t er sy, In (Some (t, er, sy)) (cl :: map re_clock (es ++ [e])) -> ~ expired start timeout delta seq t) ->
  5 <= sched_stamp start delta seq ->
  within timeout (owptime send) ((fst cur + 2208988800) mod 2^32 * 2^32 + snd cur * 2^32 / 10^9) ->
  within (timeout - 5) (owptime send) (sched_stamp start delta seq) ->
  exists recv recs, r_recs st = recs ++ [mkRec seq send recv ttl] /\
    owptime recv = (fst cur + 2208988800) mod 2^32 * 2^32 + snd cur * 2^32 / 10^9.
Proof.
  intros OK DO cl es e st pay ttl seq send cur er sy (RO & EO & CO) R Erx Pp Ec Hs NX S5 W1 W2.
  pose proof (run_go_unseen D H mode aeskey hmackey start timeout npackets delta fudge cl _ st R CO) as U.
  destruct (run_records D H mode aeskey hmackey start timeout npackets delta fudge OK DO cl es e st pay ttl seq send cur er sy
    RO EO U R Erx Pp Ec Hs) as (recv & R1 & recs & R2); auto.
  - intros (t & er' & sy' & I & X). exact (NX _ _ _ I X).
  - exists recv, recs. auto.
Qed.

(** C38, partial: when the receiver is stopped, every packet expired at the last clock reading that was processed is
    classified: the reading of the last completed passage when the signal is noticed before the losses are
    written, the newest reading when it is noticed thereafter. *)
Theorem C38_stop_partial : rsession_ok start timeout npackets delta -> in_era start npackets delta -> (forall b, octets b -> octets (D aeskey b)) ->
  0 < ns_of timeout ->
  forall cl es e st0 st, environment cl (es ++ [e]) -> run cl None es = RGo st0 -> run cl None (es ++ [e]) = ROver st ->
  forall q t er sy, 0 <= q < npackets -> expired start timeout delta q t ->
  (if match re_chk1 e, re_chk2 e, re_chk3 e with CNone, CNone, CNone => true | _, _, _ => false end
   then re_clock e else last_clock cl es) = Some (t, er, sy) ->
  classified q (r_recs st).
Proof.
  intros OK ERA DO TO cl es e st0 st (RO & EO & CO) R0 R q t er sy Hq X L.
  rewrite Forall_app in EO, CO. destruct EO as [EO1 EO2], CO as [CO1 CO2]. inversion EO2 as [|? ? EOe _]; subst.
  rewrite run_snoc, R0 in R.
  pose proof (run_ok D H mode aeskey hmackey start timeout npackets delta fudge OK DO cl None es RO EO1) as P.
  rewrite R0 in P. cbn [run_post] in P. destruct P as [b Inv].
  pose proof (pass_ok D H mode aeskey hmackey start timeout npackets delta fudge OK DO b cl None es e st0 Inv EOe) as PP. rewrite R in PP.
  cbn [pass_post] in PP. destruct PP as (b' & B1 & B2 & B3 & B4 & B5 & B6).
  destruct (C36_during OK ERA DO cl es st0 (conj RO (conj EO1 CO1)) R0) as [During _].
  unfold r_pass in R. destruct (_ <? 0); [discriminate|]. unfold checked at 1 in R.
  destruct (re_chk1 e) eqn:C1; [|discriminate|injection R as <-; eapply During; eauto].
  assert (R': checked (re_chk2 e) st0
    (r_clock start timeout npackets delta st0 (re_clock e) (re_chk3 e) (re_usr2 e)
      (fun st0 => checked (re_chk4 e) st0 match re_rx e with
         | RxData true pay ttl => r_packet D H mode aeskey hmackey start timeout npackets delta st0 pay ttl
         | _ => RGo st0 end)) = ROver st).
  { destruct (re_rx e) as [|[|]|]; try discriminate; exact R. }
  clear R. unfold checked at 1 in R'. destruct (re_chk2 e) eqn:C2; [|discriminate|injection R' as <-; eapply During; eauto].
  unfold r_clock in R'. destruct (re_clock e) as [[[cur er1] sy1]|] eqn:Ec; [|discriminate].
  unfold checked at 1 in R'. destruct (re_chk3 e) eqn:C3; [|discriminate|injection R' as <-; eapply During; eauto].
  injection L as -> -> ->. clear R'.
  destruct (B5 eq_refl eq_refl eq_refl TO) as [E|(n & r & cur' & er' & sy' & E1 & E2 & E3 & E4)].
  - rewrite (B4 E) in B2. apply B2. exact Hq.
  - injection E1 as -> -> ->. rewrite E2 in E3. destruct E3 as (Es & NK & _). apply B2.
    destruct (Z.ltb_spec q b'); [lia|]. exfalso.
    assert (Nc: norm cur'). { destruct EOe as [Y _]. rewrite Ec in Y. destruct Y as ((_ & Z0) & _). exact Z0. }
    destruct (expect_ns start timeout npackets delta OK n NK) as [X1 X2]. rewrite ts_lt_ns in E4 by auto.
    pose proof (rdue_mono start timeout npackets delta OK (n_seq n) q ERA ltac:(destruct NK; lia) ltac:(lia)). unfold expired in X. lia.
Qed.

(** C38, partial: a stop signal that is noticed when losses are written has all packets classified: the losses of
    all packets of the session are written. *)
Theorem C38_stop_flush : rsession_ok start timeout npackets delta -> (forall b, octets b -> octets (D aeskey b)) -> 0 < ns_of timeout ->
  forall cl es e st0 st, reading_ok cl -> Forall env_ok (es ++ [e]) -> run cl None es = RGo st0 -> run cl None (es ++ [e]) = ROver st ->
  re_chk1 e = CNone -> re_chk2 e = CNone -> re_chk3 e = CNone -> re_usr2 e = Some 0%nat ->
  forall q, 0 <= q < npackets -> classified q (r_recs st).
Proof.
  intros OK DO TO cl es e st0 st RO EO R0 R C1 C2 C3 U q Hq.
  rewrite Forall_app in EO. destruct EO as [EO1 EO2]. inversion EO2 as [|? ? EOe _]; subst.
  rewrite run_snoc, R0 in R.
  pose proof (run_ok D H mode aeskey hmackey start timeout npackets delta fudge OK DO cl None es RO EO1) as P.
  rewrite R0 in P. cbn [run_post] in P. destruct P as [b Inv].
  pose proof (pass_ok D H mode aeskey hmackey start timeout npackets delta fudge OK DO b cl None es e st0 Inv EOe) as PP. rewrite R in PP.
  cbn [pass_post] in PP. destruct PP as (b' & B1 & B2 & B3 & B4 & B5 & B6).
  rewrite (B6 C1 C2 C3 U TO) in B2. apply B2. exact Hq.
Qed.

(** C39, partial: datagrams of the right length from another source have exactly the effect of an interruption
    of the wait: whatever they contain, the records are the same and the session continues in the same way. *)
Theorem C39_other_source_partial : forall cl u es1 es2 c1 pay ttl c2 ck c3 us c4,
  run cl u (es1 ++ mkRE c1 (RxData false pay ttl) c2 ck c3 us c4 :: es2) = run cl u (es1 ++ mkRE c1 RxIntr c2 ck c3 us c4 :: es2).
Proof.
  intros. unfold run_receiver. destruct (r_start _ _ _ _ cl u) as [st|st|recs]; auto.
  revert st. induction es1 as [|e es1 IH]; intros st; cbn [app r_loop]; [reflexivity|].
  destruct (r_pass _ _ _ _ _ _ _ _ _ _ st e); auto.
Qed.

(** C39: as long as only datagrams of the right length arrive, the clock works, no termination signal
    arrives, and the packets from the sender's address that pass the check are well formed, the session does not fail. *)
Theorem C39_survives : rsession_ok start timeout npackets delta -> in_era start npackets delta -> (forall b, octets b -> octets (D aeskey b)) ->
  0 < npackets -> clock_ok fudge ->
  forall cl es, environment cl es -> cl <> None ->
  Forall (fun e => re_chk1 e <> CInt /\ re_chk2 e <> CInt /\ re_chk3 e <> CInt /\ re_chk4 e <> CInt /\ re_clock e <> None /\
    match re_rx e with
    | RxWrong stale => stale = true
    | RxData true pay ttl => forall seq send valid, parse_packet D H mode aeskey hmackey pay = PPacket seq send valid -> seq < npackets /\ valid = true
    | _ => True
    end) es ->
  forall recs, run cl None es <> RErr recs.
Proof.
  intros OK ERA DO NP (FU1 & FU2) cl es (RO & EO & CO) NC B recs E.
  assert (FUD: norm fudge /\ 0 <= ns fudge) by (split; [exact FU2|unfold ns; lia]).
  pose proof (run_benign D H mode aeskey hmackey start timeout npackets delta fudge OK DO ERA FUD cl es RO NC NP EO CO B) as P.
  rewrite E in P. exact P.
Qed.
End P.

(** ** refutations *)
(** an octet-valued cipher *)
Definition clipD (k b : list Z) : list Z := map (fun x => x mod 256) (rev b).
Lemma clip_octets : forall k b, octets (clipD k b).
Proof. intros k b. unfold octets, clipD. apply Forall_forall. intros x Hx. apply in_map_iff in Hx. destruct Hx as (y & <- & _). apply Z.mod_pos_bound. lia. Qed.
Definition secs (s : Z) : Z := (2208988800 + s) * 2^32.
Definition quiet (t : Z) : renv := mkRE CNone RxIntr CNone (Some ((t, 0), 5, 1)) CNone None CNone.
Definition rx_demo := run_receiver clipD toyH MODE_OPEN [] [] (secs 1000) (2^32) 3 (fun _ => 2^32) (0, 0).

(** C38 is false in general: here the clock shows that packet 0 (due at 1001 s, timeout 1 s) is lost, the stop signal is noticed next
    and the session ends normally without a lost record. *)
Theorem C38_refuted : exists cl es e st t er sy q,
  environment cl (es ++ [e]) /\ rx_demo cl None (es ++ [e]) = ROver st /\ re_clock e = Some (t, er, sy) /\ 0 <= q < 3 /\
  expired (secs 1000) (2^32) (fun _ => 2^32) q t /\ r_recs st = [] /\ ~ classified q (r_recs st).
Proof.
  exists (Some ((1000, 0), 5, 1)), [], (mkRE CNone RxIntr CNone (Some ((2000, 0), 5, 1)) CUsr2 None CNone).
  eexists. exists (2000, 0), 5, 1, 0. split.
  { split; [split; [split; cbn; lia|split; vm_compute; [discriminate|split; [discriminate|reflexivity]]]|].
    split; repeat constructor; cbn [re_clock re_usr2]; try lia; try (vm_compute; discriminate); try congruence. }
  split; [vm_compute; reflexivity|]. split; [reflexivity|]. split; [lia|]. split; [vm_compute; reflexivity|].
  split; [reflexivity|]. cbn. unfold classified, received_of, lost_of. cbn. lia.
Qed.

(** C39 is false for datagrams of another length, wherever they come from: any one ends any running session with an error,
    provided that errno is not accidentally EINTR; the file is then marked as invalid and removed. *)
Theorem C39_refuted : forall D H mode ak hk start timeout npackets delta fudge cl u es st e,
  run_receiver D H mode ak hk start timeout npackets delta fudge cl u es = RGo st ->
  re_chk1 e = CNone -> re_rx e = RxWrong false ->
  run_receiver D H mode ak hk start timeout npackets delta fudge cl u (es ++ [e]) = RErr (r_recs st).
Proof.
  intros. rewrite run_snoc. rewrite H0. unfold r_pass. rewrite H1, H2. destruct (_ <? 0); reflexivity.
Qed.

(** ** concrete cases *)
Lemma demo_session : rsession_ok (secs 1000) (2^32) 3 (fun _ => 2^32).
Proof. unfold rsession_ok, secs. repeat split; try lia. Qed.
Lemma demo_era : in_era (secs 1000) 3 (fun _ => 2^32).
Proof. vm_compute. split; [discriminate|reflexivity]. Qed.

(** packet 1 (due at 1002 s) arrives at 1002.5 s, packet 0 never, an alien datagram arrives; at 1500 s all is over *)
Definition demo_pay : list Z := be_enc 4 1 ++ be_enc 8 (secs 1002) ++ [128; 1] ++ zeros 10.
Definition demo_rx : list renv :=
  [ mkRE CNone (RxData true demo_pay 250) CNone (Some ((1002, 500000000), 5, 1)) CNone None CNone;
    mkRE CNone (RxData false [1;2;3] 9) CNone (Some ((1003, 0), 5, 1)) CNone None CNone;
    quiet 1500 ].
Example C36_example : exists st, rx_demo (Some ((1000, 0), 5, 1)) None demo_rx = ROver st /\
  map (fun r => (r_seq r, is_lost r, r_ttl r)) (r_recs st) = [(0, true, 255); (1, false, 250); (2, true, 255)].
Proof. eexists. split; [vm_compute; reflexivity|]. vm_compute. reflexivity. Qed.
Example C36_example_running : exists st, rx_demo (Some ((1000, 0), 5, 1)) None (firstn 2 demo_rx) = RGo st /\
  map r_seq (r_recs st) = [0; 1].
Proof. eexists. split; [vm_compute; reflexivity|]. vm_compute. reflexivity. Qed.
Example C36_hypotheses : environment (Some ((1000, 0), 5, 1)) demo_rx.
Proof.
  split; [split; [split; cbn; lia|split; vm_compute; [discriminate|split; [discriminate|reflexivity]]]|].
  split; [|repeat constructor; cbn; congruence].
  assert (RD: forall s n, 0 <= s < 2000 -> 0 <= n < 10^9 -> reading_ok (Some ((s, n), 5, 1))).
  { intros s n Hs Hn. cbn [reading_ok]. split; [split; cbn [fst snd]; lia|]. split; [cbn [fst snd]; change (10^9) with 1000000000 in *; rewrite Z.mod_small by lia; lia|lia]. }
  assert (OP: octets demo_pay).
  { unfold demo_pay, octets. vm_compute. repeat constructor; discriminate. }
  assert (O3: octets [1;2;3]) by (repeat constructor; lia).
  unfold demo_rx, quiet. constructor; [|constructor; [|constructor; [|constructor]]];
    (split; [cbn [re_clock]; apply RD; lia|unfold rx_ok; cbn [re_rx]; first [exact OP|exact O3|exact I]]).
Qed.
(** stopped while losses are written; stopped before: packet 0, expired at 1003 s, is in the file *)
Example C38_example_flush : exists st0 st, rx_demo (Some ((1000, 0), 5, 1)) None [quiet 1001] = RGo st0 /\
  rx_demo (Some ((1000, 0), 5, 1)) None ([quiet 1001] ++ [mkRE CNone RxIntr CNone (Some ((1003, 0), 5, 1)) CNone (Some 0%nat) CUsr2]) = ROver st /\
  map (fun r => (r_seq r, is_lost r)) (r_recs st) = [(0, true); (1, true); (2, true)].
Proof. eexists. eexists. split; [vm_compute; reflexivity|]. split; [vm_compute; reflexivity|]. vm_compute. reflexivity. Qed.
Example C38_example_stop : exists st0 st, rx_demo (Some ((1000, 0), 5, 1)) None [quiet 1003] = RGo st0 /\
  rx_demo (Some ((1000, 0), 5, 1)) None ([quiet 1003] ++ [mkRE CUsr2 RxIntr CNone None CNone None CNone]) = ROver st /\
  expired (secs 1000) (2^32) (fun _ => 2^32) 0 (1003, 0) /\ map (fun r => (r_seq r, is_lost r)) (r_recs st) = [(0, true)].
Proof. eexists. eexists. split; [vm_compute; reflexivity|]. split; [vm_compute; reflexivity|]. split; vm_compute; reflexivity. Qed.
(** a plausible packet of the converse of C37 *)
Example C37_example : exists send, parse_packet clipD toyH MODE_OPEN [] [] demo_pay = PPacket 1 send true /\
  within (2^32 - 5) (owptime send) (sched_stamp (secs 1000) (fun _ => 2^32) 1).
Proof. eexists. split; [vm_compute; reflexivity|]. vm_compute. split; discriminate. Qed.
Print Assumptions C36_during.
Print Assumptions C36_always.
Print Assumptions C36_complete.
Print Assumptions C37_only_plausible.
Print Assumptions C37_plausible_recorded.
Print Assumptions C38_stop_partial.
Print Assumptions C38_stop_flush.
Print Assumptions C38_refuted.
Print Assumptions C39_other_source_partial.
Print Assumptions C39_survives.
Print Assumptions C39_refuted.
