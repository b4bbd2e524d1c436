From Coq Require Import ZArith List Bool Lia ZifyBool ZifyNat.
From Verif Require Import Base BaseLemmas Arith_Model Arith_Proofs Time_Model Time_Proofs Wire_Model Wire_Spec Wire_Proofs
  Control_Model Control_Spec Packet_Model Packet_Proofs Sender_Model Sender_Spec Sender_Proofs Receiver_Model Receiver_Spec Receiver_Proofs Receiver_Run
  Reflector_Model Reflector_Spec Reflector_Proofs Twoway_Model Twoway_Spec Twoway_Proofs Twoway_Inv Twoway_Run Twoway_Run2 Twoway_End.
Import ListNotations.
Open Scope Z_scope.
Ltac Zify.zify_post_hook ::= Z.div_mod_to_equations.

Lemma read_reply_total : forall mode p, protection_of mode = Some p -> forall buf rts ttl n, octet_string n buf -> (at_pad (reply_pos p) <= n)%nat -> multiplier rts <> 0 ->
  field buf (at_serr (reply_pos p) + 1) 1 <> 0 -> field buf (at_err (reply_pos p) + 1) 1 <> 0 ->
  exists r, read_reply mode buf rts ttl = Some r /\ forall recs, write_tw recs r = Some (recs ++ [r]).
Proof.
  intros mode p PM buf rts ttl n O L M Z1 Z2. unfold read_reply. rewrite (proj1 (rep_at_pos mode p PM)). cbn [p_sseq p_sts p_serr p_rcv p_tstamperr p_tstamp p_sttl].
  change (mkTS 0 0 0 0) with ts0.
  assert (B: (at_stime (reply_pos p) + 8 <= n /\ at_serr (reply_pos p) + 2 <= n /\ at_rcv (reply_pos p) + 8 <= n /\ at_err (reply_pos p) + 2 <= n /\
    at_time (reply_pos p) + 8 <= n /\ at_sttl (reply_pos p) < n)%nat) by (destruct p; cbn in *; lia).
  destruct B as (B1 & B2 & B3 & B4 & B5 & B6).
  destruct (decode_ts_at buf n _ _ O B1 B2) as [S1 V1]. destruct (decode_ts_at buf n _ _ O B3 B4) as [S2 V2]. destruct (decode_ts_at buf n _ _ O B5 B4) as [S3 V3].
  destruct (decode_errest (decode_timestamp ts0 (sub (at_stime (reply_pos p)) 8 buf)) (sub (at_serr (reply_pos p)) 2 buf)) as [[ss x1] ok1].
  destruct (decode_errest (decode_timestamp ts0 (sub (at_rcv (reply_pos p)) 8 buf)) (sub (at_err (reply_pos p)) 2 buf)) as [[sr x2] ok2].
  destruct (decode_errest (decode_timestamp ts0 (sub (at_time (reply_pos p)) 8 buf)) (sub (at_err (reply_pos p)) 2 buf)) as [[rs x3] ok3].
  cbn [fst snd] in *. specialize (V1 Z1). specialize (V2 Z2). specialize (V3 Z2). subst ss sr rs.
  replace ok1 with true by (symmetry; rewrite S1; apply negb_true_iff, Z.eqb_neq, Z1). replace ok2 with true by (symmetry; rewrite S2; apply negb_true_iff, Z.eqb_neq, Z2).
  cbn [andb]. eexists. split; [reflexivity|]. intros recs. unfold write_tw.
  match goal with |- match encode_twrec ?r with _ => _ end = _ => destruct (encode_twrec r) eqn:EQ; [reflexivity|exfalso];
    pose proof (encode_datarec_none (tw_sent r)) as EA; pose proof (encode_datarec_none (tw_refl r)) as EB end.
  unfold encode_twrec in EQ. cbn [tw_sent tw_refl r_send r_recv] in *. cbn [spec_ts multiplier] in *.
  destruct (encode_datarec _) in EQ, EA; [|destruct (proj1 EA eq_refl); congruence].
  destruct (encode_datarec _) in EQ, EB; [discriminate|destruct (proj1 EB eq_refl); congruence].
Qed.

Section R.
Variable E D : list Z -> list Z -> list Z.
Variable H : list Z -> list Z -> list Z.
Variable mode : Z.
Variable ak rk hk : list Z.
Variable start timeout npackets : Z.
Variable delta : nat -> Z.
Variable len : nat.
Variable p : protection.
Hypothesis BC : block_cipher E D.
Hypothesis DG : digest20 H.
Hypothesis DL : blocks16 D.
Hypothesis DO : forall k b, octets b -> octets (D k b).
Hypothesis PM : protection_of mode = Some p.
Hypothesis LN : (req_pad p <= len)%nat.
Hypothesis OK : rsession_ok start timeout npackets delta.
Local Notation pass1 := (t_pass E D H mode ak rk hk start timeout npackets delta len).
Local Notation tpost := (tpost D H ak rk hk start timeout npackets delta len p).

Lemma next_cur : forall st st', t_next start npackets delta st = TGo st' -> t_cur st' = t_cur st /\ t_recv st' = false.
Proof.
  intros st st'. unfold t_next. destruct (_ <? _); [|discriminate]. destruct (tget _ _ _ _) as [[w n]|]; [|discriminate]. intros X. injection X as <-. auto.
Qed.
Lemma pass_cur : forall st e st', norm (t_cur st) -> tenv_ok p len e -> pass1 st e = TGo st' -> norm (t_cur st').
Proof.
  intros st e st' N (EC & _). unfold t_pass.
  assert (CN: forall c er sy, te_clock e = Some (c, er, sy) -> norm c) by (intros c er sy X; rewrite X in EC; apply norm_clock, EC).
  destruct (t_recv st).
  - unfold t_receive. destruct (te_stop1 e); [discriminate|]. destruct (t_hurry _ _ _ _) as [w|]; [|intros X; apply next_cur in X as [-> _]; exact N].
    destruct (_ && _); [discriminate|]. destruct (te_stop2 e); [discriminate|]. destruct (te_clock e) as [[[c er] sy]|]; [|discriminate]. specialize (CN c er sy eq_refl).
    destruct (tflush_lost _ _ _ _ _ _ _ _ _) as [w' recs'|recs'|recs']; [|discriminate|discriminate].
    destruct (_ <? _); [intros X; apply next_cur in X as [-> _]; exact CN|]. destruct (open_reply _ _ _ _ _ _); [|intros X; apply next_cur in X as [-> _]; exact CN].
    destruct w'; [discriminate|]. destruct (_ <? _); [discriminate|]. destruct (_ <? _); [intros X; injection X as <-; exact CN|].
    destruct (read_reply _ _ _ _); [|discriminate]. destruct (write_tw _ _); [|discriminate]. destruct (tget _ _ _ _) as [[w2 n]|]; [|discriminate].
    intros X; injection X as <-; exact CN.
  - unfold t_send. destruct (te_stop1 e); [discriminate|]. destruct (te_clock e) as [[[c er] sy]|]; [|discriminate]. specialize (CN c er sy eq_refl).
    destruct (tget _ _ _ _) as [[w n]|]; [|discriminate]. cbv zeta. destruct (ts_gt c _).
    + destruct (ts_gt c _); [intros X; apply next_cur in X as [-> _]; exact CN|]. destruct (tw_request _ _ _ _ _ _ _ _); [|discriminate].
      destruct (te_stop2 e); [discriminate|]. destruct (te_send e); try discriminate; intros X; try (injection X as <-; exact CN). apply next_cur in X as [-> _]; exact CN.
    + destruct (te_sleep e); [|discriminate]. intros X; injection X as <-; exact CN.
Qed.
Lemma loop_cur : forall es st st', norm (t_cur st) -> Forall (tenv_ok p len) es -> t_loop E D H mode ak rk hk start timeout npackets delta len st es = TGo st' -> norm (t_cur st').
Proof.
  induction es as [|e es IH]; intros st st' N F; cbn [t_loop]; [intros X; injection X as <-; exact N|]. apply Forall_cons_iff in F as [F1 F2].
  destruct (pass1 st e) as [s1|s1|s1 r1|s1] eqn:EP; try discriminate. apply IH; [|exact F2]. exact (pass_cur _ _ _ N F1 EP).
Qed.

Lemma accept : forall es st e c err sy data ttl s, tpost es (TGo st) -> norm (t_cur st) -> t_recv st = true -> tenv_ok p len e ->
  te_stop1 e = false -> te_stop2 e = false -> te_clock e = Some (c, err, sy) -> te_usr2 e = None -> te_rx e = TxData true data ttl ->
  (resp_len mode len <= length data)%nat \/ (te_eintr e = true /\ (at_pad (reply_pos p) <= length data)%nat) ->
  let clear := reply_clear D p rk data in
  reply_authentic H p hk clear -> field clear (at_serr (reply_pos p) + 1) 1 <> 0 -> field clear (at_err (reply_pos p) + 1) 1 <> 0 ->
  In s (t_out st) -> was_sent (s_res s) = true -> s_seq s = field clear (at_sseq (reply_pos p)) 4 ->
  tw_lost_of (s_seq s) (t_recs st) = 0%nat -> tw_received_of (s_seq s) (t_recs st) = 0%nat ->
  ns c <= ns (s_time s) + ns_of timeout ->
  npackets <= t_i st + 1 \/ ns (t_cur st) + 10^6 <= tw_sched start delta (t_i st + 1) ->
  exists st' lost r, pass1 st e = TGo st' /\ t_recs st' = t_recs st ++ lost ++ [r] /\ Forall (fun r => tw_is_lost r = true) lost /\ tells p clear c ttl r /\ tw_is_lost r = false.
Proof.
  intros es st e c err sy data ttl s (b & G & Hi & N & R) NC RV EO S1 S2 CK U RX SZ clear AU Z1 Z2 IS WS SQ L0 R0 TM HU.
  rewrite RV in G. unfold t_pass. rewrite RV. unfold t_receive. rewrite S1.
  destruct EO as (EC & EX & _). rewrite CK in EC. rewrite RX in EX.
  pose proof (g_core _ _ _ _ _ _ _ _ _ _ _ _ _ _ _ _ _ _ _ _ _ G) as C. pose proof (c_b _ _ _ _ _ _ _ _ _ C).
  assert (RL: (at_pad (reply_pos p) <= resp_len mode len)%nat).
  { unfold resp_len. rewrite (proj1 (tw_size mode p PM)), (proj2 (tw_size mode p PM)). clear - LN. destruct p; cbn [reply_pos at_pad req_pad] in *; lia. }
  assert (LD: (at_pad (reply_pos p) <= length data)%nat) by (destruct SZ as [SZ|[_ SZ]]; lia).
  assert (HW: exists w, t_hurry start npackets delta st = Some w /\ w <> [] /\ core start npackets delta b (t_i st + 1) w (t_recs st) (t_out st) (t_skip st)).
  { unfold t_hurry. destruct (Z.ltb_spec (t_i st) (npackets - 1)) as [l|l]; [|eauto].
    destruct (tget_ok start npackets delta (t_win st) b (t_i st + 1) (c_w _ _ _ _ _ _ _ _ _ C) N ltac:(lia)) as (ext & n & T1 & T2 & T3 & T4 & T5 & T6).
    rewrite T1. cbv zeta. destruct (tw_in npackets delta _ _ _ T2 T4) as [_ NK]. destruct (due_ns D hk start timeout npackets delta len p DO LN OK n NK) as [D1 D2]. rewrite T5 in D2.
    destruct HU as [HU|HU]; [lia|]. rewrite ts_lt_ns by auto. destruct (ts_sub_ns (tw_due start n) (t_cur st) D1 NC) as [B1 B2].
    replace (ns (tw_due start n) <? ns (t_cur st)) with false by lia. cbn [orb].
    destruct ((fst (ts_sub (tw_due start n) (t_cur st)) =? 0) && (snd (ts_sub (tw_due start n) (t_cur st)) <? 1000000)) eqn:EQ.
    - exfalso. apply andb_true_iff in EQ as [Q1 Q2]. unfold ns in B2 at 1. lia.
    - exists (t_win st ++ ext). split; [reflexivity|]. split; [destruct (t_win st); [congruence|discriminate]|now apply core_extend]. }
  destruct HW as (w & -> & NW & CW). cbv zeta. rewrite RX. cbn [rx_len rx_data rx_ttl].
  replace (negb (Z.of_nat (length (firstn (resp_len mode len) data)) =? Z.of_nat (resp_len mode len)) && negb (te_eintr e)) with false.
  2: { symmetry. rewrite firstn_length. destruct SZ as [SZ|[-> SZ]]; [|apply andb_false_r]. replace (Nat.min (resp_len mode len) (length data)) with (resp_len mode len) by lia. rewrite Z.eqb_refl. reflexivity. }
  rewrite S2, CK. fold (rts_of c err sy). destruct EC as (EC & NZ & HE). rewrite U.
  assert (RT: owptime (rts_of c err sy) = time_of c) by (unfold rts_of; cbn [owptime]; destruct c as [c0 c1]; destruct EC as [X1 X2]; cbn [fst snd] in *; now rewrite epoch_value).
  pose proof (rts_mult c err sy HE) as RM.
  destruct (flush_core start timeout npackets delta None (rts_of c err sy) c b _ w _ _ _ CW NW) as (k & K1 & K2 & K3).
  pose proof (c_w _ _ _ _ _ _ _ _ _ CW) as WW. destruct (tw_last npackets delta w b WW NW) as (TL1 & TL2 & _).
  assert (NF: forall r, tflush_lost start timeout npackets delta None (rts_of c err sy) c w (t_recs st) <> TFErr r).
  { intros r. unfold tflush_lost. destruct w as [|n0 w0]; [congruence|]. apply flush_nofail; [exact RM|discriminate|]. destruct WW as (WW & _). destruct TL1 as (TL1 & _). lia. }
  assert (QW: b <= s_seq s < b + Z.of_nat (length w)).
  { destruct (c_out _ _ _ _ _ _ _ _ _ CW s IS WS) as [A _]. pose proof (c_f _ _ _ _ _ _ _ _ _ CW). split; [|lia].
    destruct (Z_le_dec b (s_seq s)) as [l|l]; [exact l|exfalso]. destruct (c_past _ _ _ _ _ _ _ _ _ CW (s_seq s) ltac:(lia)) as [(X & _)|(_ & [X|X])]; [lia|lia|].
    exact (g_disj _ _ _ _ _ _ _ _ _ _ _ _ _ _ _ _ _ _ _ _ _ G s IS WS X). }
  destruct (tw_find npackets delta w b (s_seq s) WW QW) as (n & _ & NI & NQ).
  destruct (proj2 (c_out _ _ _ _ _ _ _ _ _ CW s IS WS) n NI NQ) as [XS XA].
  assert (QK: b + Z.of_nat k <= s_seq s).
  { destruct (Z_le_dec (b + Z.of_nat k) (s_seq s)) as [l|l]; [exact l|exfalso].
    assert (IF: In n (firstn k w)).
    { rewrite <- (firstn_skipn k w) in NI, WW. apply in_app_or in NI as [NI|NI]; [exact NI|exfalso]. apply (tw_app npackets delta) in WW as [_ WW].
      destruct (tw_in npackets delta _ _ _ WW NI) as [X _]. rewrite firstn_length in X. lia. }
    rewrite Forall_forall in K2. destruct (K2 n IF) as [_ [X|X]]; [|congruence]. destruct (tw_in npackets delta _ _ _ WW NI) as [_ (_ & _ & NA)].
    destruct (texpect_ns start timeout npackets delta OK n NA) as [E1 E2]. rewrite ts_lt_ns in X by auto using norm_clock. rewrite E2, XA in X. lia. }
  destruct (tflush_lost start timeout npackets delta None (rts_of c err sy) c w (t_recs st)) as [w' recs'|recs'|recs']; [| |now destruct (NF recs')].
  2: { exfalso. destruct K3 as (_ & _ & K3). destruct (c_out _ _ _ _ _ _ _ _ _ CW s IS WS) as [A _]. destruct TL1 as (TL1 & _). lia. }
  destruct K3 as (RE & N' & C' & B' & _).
  rewrite (proj1 (tw_size mode p PM)). destruct (Z.ltb_spec (Z.of_nat (length (firstn (resp_len mode len) data))) (Z.of_nat (at_pad (reply_pos p)))) as [l|_]; [rewrite firstn_length in l; lia|].
  assert (OP: open_reply D H mode rk hk (firstn (resp_len mode len) data) = Some (reply_clear D p rk (firstn (resp_len mode len) data))).
  { apply (open_reply_spec D H mode p DL PM); [rewrite firstn_length; lia|]. split; [reflexivity|]. rewrite (reply_clear_firstn D p DL) by auto. apply (authentic_firstn H p); [exact RL|exact AU]. }
  rewrite OP. rewrite (reply_clear_firstn D p DL) by auto. fold clear. rewrite (proj1 (rep_at_pos mode p PM)). cbn [p_sseq].
  assert (SE: be_dec (sub (at_sseq (reply_pos p)) 4 (firstn (resp_len mode len) clear)) = s_seq s).
  { rewrite <- field_be, field_firstn by (clear - RL; destruct p; cbn in *; lia). symmetry. exact SQ. }
  rewrite SE. destruct w' as [|h tl]; [congruence|]. cbn [t_i].
  pose proof (c_w _ _ _ _ _ _ _ _ _ C') as W'. assert (XH: x_seq h = b + Z.of_nat k) by exact (proj1 W').
  destruct (c_out _ _ _ _ _ _ _ _ _ CW s IS WS) as [A _].
  replace (t_i st <? s_seq s) with false by lia. replace (s_seq s <? x_seq h) with false by lia.
  assert (OS: octet_string (length (firstn (resp_len mode len) data)) (firstn (resp_len mode len) clear)).
  { unfold clear. rewrite <- (reply_clear_firstn D p DL) by auto. apply (reply_clear_octets D p DL DO); [apply firstn_octets; exact EX|rewrite firstn_length; lia]. }
  destruct (read_reply_total mode p PM (firstn (resp_len mode len) clear) (rts_of c err sy) ttl _ OS ltac:(rewrite firstn_length; lia) RM) as (r & RR & RW).
  { rewrite field_firstn; [exact Z1|clear - RL; destruct p; cbn in *; lia]. }
  { rewrite field_firstn; [exact Z2|clear - RL; destruct p; cbn in *; lia]. }
  rewrite RR, RW.
  destruct (read_reply_spec mode p PM _ _ ttl r _ c OS ltac:(rewrite firstn_length; lia) RT RR) as (TE & TR & TS).
  pose proof (c_f _ _ _ _ _ _ _ _ _ C').
  destruct (tget_ok start npackets delta (h :: tl) _ (s_seq s) W' N' ltac:(lia)) as (ext & n' & T1 & _). rewrite T1.
  eexists _, (lost_recs start (rts_of c err sy) (firstn k w)), r. split; [reflexivity|]. cbn [t_recs]. split; [rewrite RE, <- app_assoc; reflexivity|].
  split; [|split; [apply (tells_firstn p) in TE; [exact TE|exact RL]|unfold tw_is_lost; rewrite TR, RT; apply Z.eqb_neq; exact NZ]].
  apply Forall_forall. intros x I. apply in_map_iff in I as (m & <- & _). reflexivity.
Qed.

Lemma run_snoc : forall es st e o, run_tw E D H mode ak rk hk start timeout npackets delta len es = TGo st -> pass1 st e = o ->
  run_tw E D H mode ak rk hk start timeout npackets delta len (es ++ [e]) = o.
Proof using.
  clear. intros es st e o. unfold run_tw. destruct (npackets <=? 0); [discriminate|]. intros R <-. revert R. generalize (t_init start delta).
  induction es as [|x es IH]; intros s0; cbn [t_loop app].
  - intros X. injection X as <-. destruct (pass1 _ e); reflexivity.
  - destruct (pass1 s0 x); try discriminate. apply IH.
Qed.

(** a shorter reply ends the test *)
Lemma short_ends : forall st e data ttl w, t_recv st = true -> te_stop1 e = false -> t_hurry start npackets delta st = Some w ->
  te_rx e = TxData true data ttl -> te_eintr e = false -> (length data < resp_len mode len)%nat ->
  pass1 st e = TEnd (mkT (t_i st) true w (t_recs st) (t_ts st) (t_last st) (t_cur st) (t_rc st) (t_out st) (t_skip st)).
Proof using.
  clear. intros st e data ttl w RV S1 HU RX EI L. unfold t_pass. rewrite RV. unfold t_receive. rewrite S1, HU. cbv zeta. rewrite RX, EI. cbn [rx_len negb].
  rewrite firstn_length. replace (Z.of_nat (Nat.min (resp_len mode len) (length data)) =? Z.of_nat (resp_len mode len)) with false by lia. reflexivity.
Qed.
End R.
