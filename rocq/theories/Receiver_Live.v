(** When the receiver goes on, and when it ends. *)
From Coq Require Import ZArith List Bool Lia ZifyBool ZifyNat Sorted.
From Verif Require Import Base BaseLemmas Arith_Model Arith_Proofs Time_Model Time_Proofs Wire_Model Wire_Spec Wire_Proofs
  Control_Model Packet_Model Sender_Spec Sender_Proofs Receiver_Model Receiver_Spec Receiver_Proofs Receiver_Run.
Import ListNotations.
Open Scope Z_scope.
Ltac Zify.zify_post_hook ::= Z.div_mod_to_equations.

Lemma parse_valid_mult : forall D H mode k hk pay seq t, parse_packet D H mode k hk pay = PPacket seq t true -> multiplier t <> 0.
Proof.
  intros D H mode k hk pay seq t P. unfold parse_packet in P.
  assert (G: forall p to eo sq tt,
    (let t := decode_timestamp (mkTS 0 0 0 0) (sub to 8 p) in
     let '(t, _, ok) := decode_errest t (sub eo 2 p) in PPacket (be_dec (sub 0 4 p)) t ok) = PPacket sq tt true -> multiplier tt <> 0).
  { intros p to eo sq tt Q. cbn zeta in Q. unfold decode_errest in Q.
    pose proof (f_equal (fun p => match p with PPacket _ t _ => multiplier t | _ => 0 end) Q) as Q1.
    pose proof (f_equal (fun p => match p with PPacket _ _ v => v | _ => false end) Q) as Q2.
    cbv beta iota in Q1, Q2. cbn [multiplier] in Q1. rewrite <- Q1. lia. }
  destruct (mode =? MODE_OPEN); [eapply G; exact P|].
  destruct (cbc_dec D k (zeros 16) 1 (sub 0 16 pay)) as [p1 iv].
  destruct (mode =? MODE_ENCR).
  - destruct (cbc_dec D k iv 1 _) as [p2 iv2]. destruct (eqb_octets _ _); [|discriminate]. eapply G; exact P.
  - destruct (eqb_octets _ _); [|discriminate]. eapply G; exact P.
Qed.

Definition minv (st : rstate) : Prop := multiplier (r_stamp st) <> 0 \/ r_lasterr st = 0.

Lemma stamp_mult : forall st cur err sy, minv st -> 0 <= err < M32 -> multiplier (stamp (r_stamp st) (r_lasterr st) cur err sy) <> 0.
Proof.
  intros st cur err sy M He. unfold stamp, OWPTimespecToTimestamp. cbn [multiplier].
  destruct (Z.eqb_spec err 0); [cbn; lia|].
  destruct (Z.eqb_spec err (r_lasterr st)) as [e|e]; cbn [negb].
  - cbn [multiplier]. destruct M; [auto|lia].
  - destruct (err_estimate_sound err ltac:(lia)) as (sc & mu & E & B & _). rewrite E. cbn [multiplier]. lia.
Qed.

Section R.
Variable D : list Z -> list Z -> list Z.
Variable H : list Z -> list Z -> list Z.
Variable mode : Z.
Variable aeskey hmackey : list Z.
Variable start timeout npackets : Z.
Variable delta : nat -> Z.
Variable fudge : tspec.
Hypothesis OK : rsession_ok start timeout npackets delta.
Hypothesis Doct : forall b, octets b -> octets (D aeskey b).
Hypothesis ERA : in_era start npackets delta.
Hypothesis FUD : norm fudge /\ 0 <= ns fudge.

Local Notation winv := (winv D H mode aeskey hmackey start timeout npackets delta).
Local Notation pass := (r_pass D H mode aeskey hmackey start timeout npackets delta fudge).
Local Notation run := (run_receiver D H mode aeskey hmackey start timeout npackets delta fudge).
Local Notation parse := (parse_packet D H mode aeskey hmackey).

Lemma winv_norm : forall b cl u es st, reading_ok cl -> Forall env_ok es -> winv b cl u es st -> norm (r_cur st).
Proof.
  intros b cl u es st RO EO (_ & _ & _ & _ & _ & _ & er & sy & L).
  assert (X: reading_ok (last_clock cl es)).
  { clear L. unfold last_clock. destruct es as [|e es] using rev_ind; [exact RO|]. rewrite map_app. cbn [map]. rewrite last_last.
    rewrite Forall_app in EO. destruct EO as [_ EO]. inversion EO as [|? ? [Y _] _]; subst. exact Y. }
  rewrite L in X. destruct X as ((_ & X) & _). exact X.
Qed.

(** the numbers from the first of the queue on are not yet expired *)
Lemma unexpired : forall b cl u es st q, reading_ok cl -> Forall env_ok es -> winv b cl u es st -> unseen u es ->
  b <= q < npackets -> ~ expired start timeout delta q (r_cur st).
Proof.
  intros b cl u es st q RO EO Inv U Hq X. pose proof (winv_norm _ _ _ _ _ RO EO Inv) as Nc.
  destruct Inv as (B0 & W & N & A & F & S & L). destruct (S U) as (_ & n & r & E & T).
  rewrite E in W. destruct W as (Es & NK & _).
  destruct (expect_ns start timeout npackets delta OK n NK) as [E1 E2]. rewrite ts_lt_ns in T by auto.
  pose proof (rdue_mono start timeout npackets delta OK (n_seq n) q ERA ltac:(lia) ltac:(lia)). unfold expired in X. lia.
Qed.

Lemma wake_ok : forall b cl u es st, reading_ok cl -> Forall env_ok es -> winv b cl u es st -> unseen u es ->
  (fst (wake timeout fudge st) <? 0) = false.
Proof.
  intros b cl u es st RO EO Inv U. pose proof (winv_norm _ _ _ _ _ RO EO Inv) as Nc.
  pose proof Inv as (B0 & W & N & A & F & S & L). destruct (S U) as (_ & n & r & E & T).
  destruct (win_last start npackets delta _ _ W N) as [L1 L2].
  pose proof W as W2. rewrite E in W2. destruct W2 as (Es & NK & _).
  destruct (expect_ns start timeout npackets delta OK n NK) as [E1 E2]. rewrite ts_lt_ns in T by auto.
  assert (Lw: (1 <= length (r_win st))%nat) by (rewrite E; cbn; lia).
  destruct L1 as (L1a & L1b).
  pose proof (rdue_mono start timeout npackets delta OK (n_seq n) (n_seq (last_node (r_win st))) ERA ltac:(lia) ltac:(lia)) as M.
  destruct (abs_ns start npackets delta _ (conj L1a L1b)) as [A1 A2]. destruct (lost_ns start timeout npackets delta OK) as (Ls1 & Ls2 & _).
  destruct FUD as [F1 F2].
  assert (Z0: norm (0, 0)) by (red; cbn; lia).
  unfold wake. destruct (ts_add_ns _ _ Z0 A1) as [B1 B2]. destruct (ts_add_ns _ _ B1 Ls1) as [C1 C2].
  destruct (ts_add_ns _ _ C1 F1) as [D1 D2]. destruct (ts_sub_ns _ _ D1 Nc) as [G1 G2].
  set (x := ts_sub _ _) in *. rewrite D2, C2, B2, A2, Ls2 in G2. unfold ns at 2 in G2. cbn [fst snd] in G2.
  apply Z.ltb_ge. unfold ns in G2 at 1. red in G1. destruct (Z.le_gt_cases 0 (fst x)); auto. exfalso. lia.
Qed.

(** events in which nothing goes wrong: no termination signal, the clock works, only datagrams of the right
    length, and those from the sender's address that pass the integrity check have a valid sequence number and
    error estimate *)
Definition benign (e : renv) : Prop :=
  re_chk1 e <> CInt /\ re_chk2 e <> CInt /\ re_chk3 e <> CInt /\ re_chk4 e <> CInt /\ re_clock e <> None /\
  match re_rx e with
  | RxWrong stale => stale = true
  | RxData true pay ttl => forall seq send valid, parse pay = PPacket seq send valid -> seq < npackets /\ valid = true
  | _ => True
  end.

Lemma pass_benign : forall b cl u es e st, reading_ok cl -> Forall env_ok es -> env_ok e -> winv b cl u es st -> unseen u es -> minv st ->
  benign e -> match pass st e with RGo st' => minv st' | ROver _ => True | RErr _ => False end.
Proof.
  intros b cl u es e st RO EO EOe Inv U M (I1 & I2 & I3 & I4 & Cl & Rx). unfold r_pass.
  rewrite (wake_ok b cl u es st RO EO Inv U). unfold checked at 1.
  destruct (re_chk1 e); [|congruence|exact I].
  pose proof Inv as (B0 & W & N & A & F & S & L).
  assert (G: match checked (re_chk2 e) st
    (r_clock start timeout npackets delta st (re_clock e) (re_chk3 e) (re_usr2 e)
      (fun st0 => checked (re_chk4 e) st0 match re_rx e with
         | RxData true pay ttl => r_packet D H mode aeskey hmackey start timeout npackets delta st0 pay ttl
         | _ => RGo st0 end)) with RGo st' => minv st' | ROver _ => True | RErr _ => False end).
  2:{ destruct (re_rx e) as [|[|]|]; auto. discriminate. }
  unfold checked at 1. destruct (re_chk2 e); [|congruence|exact I].
  unfold r_clock. destruct (re_clock e) as [[[cur er] sy]|] eqn:Ec; [|congruence].
  unfold checked at 1. destruct (re_chk3 e); [|congruence|exact I]. cbn zeta.
  assert (RO2: reading_ok (Some (cur, er, sy))) by (rewrite <- Ec; apply EOe).
  set (t := stamp (r_stamp st) (r_lasterr st) cur er sy).
  assert (Mt: multiplier t <> 0) by (apply stamp_mult; auto; apply RO2).
  pose proof (flush_ok start timeout npackets delta OK (fun _ => True) (re_usr2 e) t cur (r_win st) (r_recs st) b) as P.
  assert (P': flush_post start timeout npackets delta (fun _ => True) (re_usr2 e) 0 t cur b (flush_lost start timeout npackets delta (re_usr2 e) t cur (r_win st) (r_recs st))).
  { apply P; auto. clear. induction (r_recs st); constructor; auto. }
  clear P. destruct (flush_lost _ _ _ _ _ _ _ _ _) as [w' recs'|recs'|recs']; cbn [flush_post] in P'; [|exact I|tauto].
  destruct P' as (b' & Q1 & Q2 & Q3 & Q4 & _).
  unfold checked. destruct (re_chk4 e); [|congruence|exact I].
  assert (Mi: minv (mkRS w' recs' t er cur)) by (left; exact Mt).
  destruct (re_rx e) as [|?|peer pay ttl] eqn:Erx; auto. destruct peer; auto.
  unfold r_packet. destruct (parse pay) as [|seq send valid] eqn:Pp; [exact Mi|].
  destruct (Rx seq send valid eq_refl) as [Hs Hv]. subst valid.
  destruct (Z.leb_spec npackets seq); [lia|]. cbn [r_win r_recs r_stamp r_lasterr r_cur].
  destruct w' as [|n0 w0]; [congruence|]. pose proof Q2 as (Es0 & _ & _). rewrite Es0.
  destruct (Z.ltb_spec seq b'); [exact Mi|].
  destruct (get_node_ok start npackets delta (n0 :: w0) b' seq Q2 Q3 ltac:(lia)) as (ext & n & G & _). rewrite G. cbn [negb].
  destruct (timeout <? _); [left; exact Mt|]. destruct (timeout <? _); [left; exact Mt|].
  unfold write_rec. destruct (encode_datarec _) eqn:Ed; [left; exact Mt|].
  apply encode_datarec_none in Ed. cbn [r_send r_recv] in Ed. destruct Ed as [Ed|Ed]; [|congruence].
  exact (parse_valid_mult _ _ _ _ _ _ _ _ Pp Ed).
Qed.

Lemma pass_go_chk4 : forall st e st', pass st e = RGo st' -> re_chk4 e = CNone.
Proof.
  intros st e st' P. unfold r_pass in P. destruct (_ <? 0); [discriminate|]. unfold checked at 1 in P.
  destruct (re_chk1 e); try discriminate.
  destruct (re_rx e) as [|[|]|]; try discriminate; unfold checked at 1 in P; destruct (re_chk2 e); try discriminate;
  unfold r_clock in P; destruct (re_clock e) as [[[? ?] ?]|]; try discriminate; unfold checked at 1 in P;
  destruct (re_chk3 e); try discriminate; cbn zeta in P;
  destruct (flush_lost _ _ _ _ _ _ _ _ _); try discriminate; unfold checked in P; destruct (re_chk4 e); try discriminate; auto.
Qed.

Lemma run_go_unseen : forall cl es st, run cl None es = RGo st ->
  Forall (fun e => re_usr2 e <> None -> re_chk4 e <> CNone) es -> unseen None es.
Proof.
  intros cl es. induction es as [|e es IH] using rev_ind; intros st R F; [split; auto|].
  rewrite Forall_app in F. destruct F as [F1 F2]. inversion F2 as [|? ? Fe _]; subst.
  rewrite run_snoc in R. destruct (run cl None es) as [st0|?|?] eqn:R0; try discriminate.
  destruct (IH _ eq_refl F1) as [_ I]. split; auto. apply Forall_app. split; auto. constructor; auto.
  destruct (re_usr2 e); auto. exfalso. apply Fe; [discriminate|]. eapply pass_go_chk4; eauto.
Qed.

Lemma run_benign : forall cl es, reading_ok cl -> cl <> None -> 0 < npackets -> Forall env_ok es ->
  Forall (fun e => re_usr2 e <> None -> re_chk4 e <> CNone) es -> Forall benign es ->
  match run cl None es with RGo st => minv st | ROver _ => True | RErr _ => False end.
Proof.
  intros cl es RO NC NP. induction es as [|e es IH] using rev_ind; intros EO CO BE.
  - unfold run_receiver, r_start. destruct (Z.leb_spec npackets 0); [lia|]. unfold r_clock.
    destruct cl as [[[cur er] sy]|]; [|congruence]. unfold checked. cbn [r_win r_recs r_stamp r_lasterr].
    set (n0 := mkNode 0 _ _ false). set (t := stamp _ _ cur er sy).
    assert (Mt: multiplier t <> 0).
    { apply (stamp_mult (mkRS [] [] (mkTS 0 0 0 0) 0 (0,0))); [right; reflexivity|apply RO]. }
    destruct OK as (_ & _ & _ & Hd).
    assert (NK: node_ok start npackets delta n0).
    { unfold n0, node_ok. cbn [n_seq n_rel n_abs]. split; [lia|]. split; [|reflexivity]. cbn [Z.to_nat total].
      symmetry. apply Z.mod_small. apply Hd. }
    pose proof (flush_ok start timeout npackets delta OK (fun _ => True) None t cur [n0] [] 0) as P.
    destruct (flush_lost _ _ _ _ _ _ _ _ _) as [w' recs'|recs'|recs']; [left; exact Mt|exact I|].
    cbn [flush_post] in P. destruct P as (_ & _ & P); auto; try discriminate.
    + cbn [win_ok]. repeat split; auto; apply NK.
    + unfold acct, classified, lost_of, received_of, lost_seqs. cbn [filter length map]. repeat split; auto; try lia; try constructor.
      match goal with X : In _ [n0] |- _ => destruct X as [<-|[]] end. discriminate.
  - rewrite Forall_app in EO, CO, BE. destruct EO as [EO1 EO2], CO as [CO1 CO2], BE as [BE1 BE2].
    inversion EO2; inversion CO2; inversion BE2; subst. specialize (IH EO1 CO1 BE1).
    rewrite run_snoc. pose proof (run_ok D H mode aeskey hmackey start timeout npackets delta fudge OK Doct cl None es RO EO1) as P.
    destruct (run cl None es) as [st|?|?] eqn:R0; auto. cbn [run_post] in P. destruct P as [b Inv].
    assert (U: unseen None es) by (eapply run_go_unseen; eauto).
    apply (pass_benign b cl None es e st); auto.
Qed.

(** numbers leave the queue only when expired *)
Definition headseq (w : list node) : Z := match w with n :: _ => n_seq n | [] => 0 end.

Lemma flush_popped : forall er fuel j cur w recs b w' recs', norm cur ->
  win_ok start npackets delta b w -> w <> [] ->
  flush_loop start timeout npackets delta fuel j None er cur w recs = FGo w' recs' ->
  forall q, b <= q < headseq w' -> expired start timeout delta q cur.
Proof.
  intros er. induction fuel as [|fuel IH]; intros j cur w recs b w' recs' Nc W N E q Hq; [discriminate|].
  destruct w as [|n rest]; [congruence|]. cbn [flush_loop usr2_seen] in E. pose proof W as (Es & NK & W').
  destruct (ts_lt (expect_of timeout n) cur) eqn:T.
  2:{ injection E as <- <-. cbn [headseq] in Hq. lia. }
  destruct (Z.eq_dec q b) as [->|].
  { destruct (expect_ns start timeout npackets delta OK n NK) as [X1 X2]. rewrite ts_lt_ns in T by auto. unfold expired. rewrite <- Es. lia. }
  destruct (if n_hit n then Some recs else write_rec recs (lost_rec start n er)) as [recs1|]; [|discriminate].
  destruct rest as [|m rest'].
  - destruct (Z.ltb_spec (n_seq n + 1) npackets) as [lt|ge]; [|discriminate].
    destruct (next_ok start npackets delta n NK lt) as [X1 X2].
    eapply (IH (S j) cur [next_node start delta n] recs1 (b + 1)); eauto; [|discriminate|lia].
    cbn [win_ok]. repeat split; try lia; apply X1.
  - eapply (IH (S j) cur (m :: rest') recs1 (b + 1)); eauto; [discriminate|lia].
Qed.

Definition has_expired (cl : option (tspec * Z * Z)) (es : list renv) (q : Z) : Prop :=
  exists t er sy, In (Some (t, er, sy)) (cl :: map re_clock es) /\ expired start timeout delta q t.

Lemma has_expired_mono : forall cl es e q, has_expired cl es q -> has_expired cl (es ++ [e]) q.
Proof.
  intros cl es e q (t & er & sy & I & Q). exists t, er, sy. split; [|exact Q].
  destruct I as [I|I]; [left; auto|right]. rewrite map_app. apply in_or_app. auto.
Qed.

Lemma flush_lost_popped : forall er cur w recs b w' recs', norm cur ->
  win_ok start npackets delta b w -> w <> [] ->
  flush_lost start timeout npackets delta None er cur w recs = FGo w' recs' ->
  forall q, b <= q < headseq w' -> expired start timeout delta q cur.
Proof.
  intros er cur w recs b w' recs' Nc W N E. destruct w; [congruence|]. unfold flush_lost in E. eapply flush_popped; eauto.
Qed.

Lemma packet_head : forall st pay ttl st', r_packet D H mode aeskey hmackey start timeout npackets delta st pay ttl = RGo st' ->
  headseq (r_win st') = headseq (r_win st).
Proof.
  intros st pay ttl st' P. unfold r_packet in P. destruct (parse pay) as [|seq send valid]; [congruence|].
  destruct (npackets <=? seq); [discriminate|]. destruct (r_win st) as [|n0 w0] eqn:Ew; [discriminate|].
  destruct (seq <? n_seq n0); [congruence|]. unfold get_node in P.
  set (w1 := if _ <? seq then _ else _) in P.
  assert (Hw: headseq w1 = n_seq n0) by (unfold w1; destruct (_ <? seq); reflexivity). clearbody w1.
  destruct (find _ w1) as [n|]; [|discriminate]. destruct (negb valid); [discriminate|].
  cbn [r_stamp r_recs] in P.
  destruct (timeout <? _); [injection P as <-; exact Hw|]. destruct (timeout <? _); [injection P as <-; exact Hw|].
  destruct (write_rec _ _); [|discriminate]. injection P as <-. cbn [r_win headseq].
  destruct w1 as [|n1 w1]; cbn [set_hit map headseq] in *; [exact Hw|]. destruct (n_seq n1 =? seq); exact Hw.
Qed.

Lemma run_popped : forall cl es st, reading_ok cl -> Forall env_ok es -> run cl None es = RGo st -> unseen None es ->
  forall q, 0 <= q < headseq (r_win st) -> has_expired cl es q.
Proof.
  intros cl es. induction es as [|e es IH] using rev_ind; intros st RO EO R U q Hq.
  - unfold run_receiver, r_start in R. destruct (Z.leb_spec npackets 0); [discriminate|]. unfold r_clock in R.
    destruct cl as [[[cur er] sy]|]; [|discriminate]. unfold checked in R. cbn [r_win r_recs r_stamp r_lasterr] in R.
    set (n0 := mkNode 0 _ _ false) in R. set (t := stamp _ _ cur er sy) in R.
    destruct OK as (_ & _ & _ & Hd).
    assert (NK: node_ok start npackets delta n0).
    { unfold n0, node_ok. cbn [n_seq n_rel n_abs]. split; [lia|]. split; [|reflexivity]. cbn [Z.to_nat total].
      symmetry. apply Z.mod_small. apply Hd. }
    destruct (flush_lost _ _ _ _ _ _ _ _ _) as [w' recs'|recs'|recs'] eqn:Fl; try discriminate.
    cbn [r_loop] in R. injection R as <-. cbn [r_win] in Hq.
    exists cur, er, sy. split; [left; reflexivity|].
    assert (W: win_ok start npackets delta 0 [n0]) by (cbn [win_ok]; repeat split; auto; apply NK).
    destruct RO as ((_ & Nc) & _).
    exact (flush_lost_popped t cur [n0] [] 0 w' recs' Nc W ltac:(discriminate) Fl q Hq).
  - rewrite Forall_app in EO. destruct EO as [EO1 EO2]. inversion EO2 as [|? ? EOe _]; subst.
    destruct U as [_ U]. rewrite Forall_app in U. destruct U as [U1 U2]. inversion U2 as [|? ? Ue _]; subst.
    rewrite run_snoc in R. pose proof (run_ok D H mode aeskey hmackey start timeout npackets delta fudge OK Doct cl None es RO EO1) as RP.
    destruct (run cl None es) as [st0|?|?] eqn:R0; try discriminate. cbn [run_post] in RP. destruct RP as [b Inv].
    specialize (IH st0 RO EO1 eq_refl (conj eq_refl U1)). pose proof Inv as (B0 & W & N & A & F & S & L).
    assert (Hb: headseq (r_win st0) = b). { destruct (r_win st0); [congruence|]. cbn [headseq]. apply W. }
    unfold r_pass in R. destruct (_ <? 0); [discriminate|]. unfold checked at 1 in R. destruct (re_chk1 e); try discriminate.
    assert (Go: r_clock start timeout npackets delta st0 (re_clock e) (re_chk3 e) (re_usr2 e)
      (fun st => checked (re_chk4 e) st (match re_rx e with
                  | RxData true pay ttl => r_packet D H mode aeskey hmackey start timeout npackets delta st pay ttl
                  | _ => RGo st end)) = RGo st).
    { destruct (re_rx e) as [|[|]|]; try discriminate; unfold checked at 1 in R; destruct (re_chk2 e); try discriminate; exact R. }
    clear R. unfold r_clock in Go. destruct (re_clock e) as [[[cur er] sy]|] eqn:Ec; [|discriminate].
    unfold checked at 1 in Go. destruct (re_chk3 e); try discriminate. cbn zeta in Go. rewrite Ue in Go.
    destruct (flush_lost _ _ _ _ _ _ _ _ _) as [w' recs'|recs'|recs'] eqn:Fl; try discriminate.
    assert (Hh: headseq (r_win st) = headseq w').
    { unfold checked in Go. destruct (re_chk4 e); try discriminate.
      destruct (re_rx e) as [|?|[|] pay ttl]; try (injection Go as <-; reflexivity).
      apply packet_head in Go. exact Go. }
    rewrite Hh in Hq. destruct (Z.ltb_spec q b); [apply has_expired_mono, IH; lia|].
    assert (Nc: norm cur). { destruct EOe as [X _]. rewrite Ec in X. destruct X as ((_ & Y) & _). exact Y. }
    exists cur, er, sy. split; [right; rewrite map_app; apply in_or_app; right; left; exact Ec|].
    exact (flush_lost_popped _ cur (r_win st0) (r_recs st0) b w' recs' Nc W N Fl q ltac:(lia)).
Qed.

(** a plausible packet is recorded *)
Lemma run_records : forall cl es e st' pay ttl seq send cur er sy,
  reading_ok cl -> Forall env_ok (es ++ [e]) -> unseen None (es ++ [e]) ->
  run cl None (es ++ [e]) = RGo st' ->
  re_rx e = RxData true pay ttl -> parse pay = PPacket seq send true -> re_clock e = Some (cur, er, sy) ->
  0 <= seq < npackets -> ~ has_expired cl (es ++ [e]) seq -> 5 <= sched_stamp start delta seq ->
  within timeout (owptime send) (sv cur) -> within (timeout - 5) (owptime send) (sched_stamp start delta seq) ->
  exists recv, owptime recv = sv cur /\ exists recs, r_recs st' = recs ++ [mkRec seq send recv ttl].
Proof.
  intros cl es e st' pay ttl seq send cur er sy RO EO U R Erx Pp Ec Hs NX S5 W1 W2.
  assert (RH: forall q, 0 <= q < headseq (r_win st') -> has_expired cl (es ++ [e]) q) by (eapply run_popped; eauto).
  rewrite Forall_app in EO. destruct EO as [EO1 EO2]. inversion EO2 as [|? ? EOe _]; subst.
  rewrite run_snoc in R. pose proof (run_ok D H mode aeskey hmackey start timeout npackets delta fudge OK Doct cl None es RO EO1) as RP.
  destruct (run cl None es) as [st|?|?] eqn:R0; try discriminate. cbn [run_post] in RP. destruct RP as [b Inv].
  pose proof Inv as (B0 & W & N & A & F & S & L).
  unfold r_pass in R. destruct (_ <? 0); [discriminate|]. unfold checked at 1 in R. destruct (re_chk1 e); try discriminate.
  rewrite Erx in R. unfold checked at 1 in R. destruct (re_chk2 e); try discriminate.
  unfold r_clock in R. rewrite Ec in R. unfold checked at 1 in R. destruct (re_chk3 e); try discriminate. cbn zeta in R.
  assert (RO2: reading_ok (Some (cur, er, sy))) by (rewrite <- Ec; apply EOe).
  set (t := stamp (r_stamp st) (r_lasterr st) cur er sy) in *.
  destruct (reading_stamp D H aeskey hmackey Doct (r_stamp st) (r_lasterr st) cur er sy RO2) as (Ts & _ & U64). fold t in Ts.
  pose proof (flush_ok start timeout npackets delta OK (fun _ => True) (re_usr2 e) t cur (r_win st) (r_recs st) b) as P'.
  assert (P2: flush_post start timeout npackets delta (fun _ => True) (re_usr2 e) 0 t cur b (flush_lost start timeout npackets delta (re_usr2 e) t cur (r_win st) (r_recs st))).
  { apply P'; auto. clear. induction (r_recs st); constructor; auto. }
  clear P'. destruct (flush_lost _ _ _ _ _ _ _ _ _) as [w' recs'|recs'|recs']; cbn [flush_post] in P2; try discriminate.
  destruct P2 as (b' & Q1 & Q2 & Q3 & Q4 & _ & _).
  unfold checked in R. destruct (re_chk4 e); try discriminate.
  pose proof (packet_head _ _ _ _ R) as PH. cbn [r_win] in PH. rewrite PH in RH. clear PH.
  unfold r_packet in R. rewrite Pp in R. destruct (Z.leb_spec npackets seq); [lia|]. cbn [r_win r_recs r_stamp r_lasterr r_cur] in R.
  destruct w' as [|n0 w0]; [discriminate|]. pose proof Q2 as (Es0 & NK0 & _). cbn [headseq] in RH.
  destruct (Z.ltb_spec seq (n_seq n0)); [exfalso; apply NX, RH; lia|].
  destruct (get_node_ok start npackets delta (n0 :: w0) b' seq Q2 Q3 ltac:(lia)) as (ext & n & G & _ & _ & _ & Es & NK).
  rewrite G in R. cbn [negb] in R.
  pose proof (parse_u64 _ _ _ _ _ _ _ _ _ Doct ltac:(destruct EOe as [_ X]; unfold rx_ok in X; rewrite Erx in X; exact X) Pp) as PU.
  assert (D1: OWPNum64Diff (owptime send) (owptime t) <= timeout) by (rewrite Ts; apply diff_within; auto).
  destruct (Z.ltb_spec timeout (OWPNum64Diff (owptime send) (owptime t))); [lia|].
  set (x := owptime (OWPTimespecToTimestamp _ (n_abs n) None None)) in R.
  assert (XU: is_u64 x) by (unfold x; rewrite owptime_ToTimestamp; unfold OWPNum64Add, u64; red; apply Z.mod_pos_bound; lia).
  assert (X5: (sched_stamp start delta seq - x) mod M64 <= 5).
  { unfold x. rewrite <- Es, (sched_mod D H aeskey hmackey start npackets delta Doct n NK). destruct NK as (_ & _ & NA). rewrite NA. unfold abs_of.
    exact (epoch_back (mkTS 0 0 0 0) (mkTS (OWPNum64Add (n_rel n) start) 0 0 0) None None
             (Z.mod_pos_bound (n_rel n + start) M64 ltac:(lia))). }
  assert (D2: OWPNum64Diff (owptime send) x <= timeout).
  { apply diff_within; auto. assert (S64: 0 <= sched_stamp start delta seq < M64) by (apply Z.mod_pos_bound; lia).
    set (s := sched_stamp start delta seq) in *. clearbody s x. unfold within in *. red in XU.
    assert (0 <= s - x <= 5); [|lia]. pose proof (Z.mod_pos_bound (s - x) M64 ltac:(lia)).
    destruct (Z.leb_spec 0 (s - x)); [rewrite Z.mod_small in X5 by lia; lia|]. lia. }
  destruct (Z.ltb_spec timeout (OWPNum64Diff (owptime send) x)); [lia|].
  destruct (write_rec recs' (mkRec seq send t ttl)) as [recs|] eqn:Wr; [|discriminate]. apply write_some in Wr. subst recs.
  injection R as <-. cbn [r_recs]. exists t. split; [exact Ts|]. exists recs'. reflexivity.
Qed.

(** the receiver ends by itself only when all packets have been accounted for *)
Lemma pass_over_self : forall st e st', pass st e = ROver st' ->
  re_chk1 e <> CUsr2 -> re_chk2 e <> CUsr2 -> re_chk3 e <> CUsr2 -> re_chk4 e <> CUsr2 -> r_win st' = [].
Proof.
  intros st e st' P C1 C2 C3 C4. unfold r_pass in P. destruct (_ <? 0); [discriminate|]. unfold checked at 1 in P.
  destruct (re_chk1 e); try discriminate; try congruence.
  destruct (re_rx e) as [|[|]|peer pay ttl]; try discriminate; unfold checked at 1 in P; destruct (re_chk2 e); try discriminate; try congruence;
  unfold r_clock in P; destruct (re_clock e) as [[[? ?] ?]|]; try discriminate; unfold checked at 1 in P;
  destruct (re_chk3 e); try discriminate; try congruence; cbn zeta in P;
  destruct (flush_lost _ _ _ _ _ _ _ _ _); try discriminate; try (inversion P; subst; reflexivity);
  unfold checked in P; destruct (re_chk4 e); try discriminate; try congruence.
  exfalso. destruct peer; [|discriminate]. unfold r_packet in P.
  repeat match type of P with context [match ?x with _ => _ end] => destruct x; try discriminate end.
Qed.
End R.
