From Coq Require Import ZArith List Bool Lia ZifyBool ZifyNat.
From Verif Require Import Base BaseLemmas Arith_Model Arith_Proofs Time_Model Time_Proofs Wire_Model Wire_Spec Wire_Proofs
  Control_Model Control_Spec Packet_Model Packet_Proofs Sender_Model Sender_Spec Sender_Proofs Receiver_Model Receiver_Spec Receiver_Proofs Receiver_Run
  Reflector_Model Reflector_Spec Reflector_Proofs Twoway_Model Twoway_Spec Twoway_Proofs Twoway_Inv Twoway_Run Twoway_Run2.
Import ListNotations.
Open Scope Z_scope.
Ltac Zify.zify_post_hook ::= Z.div_mod_to_equations.

(** the time stamp given to flush_lost, and to the record of a reply *)
Definition rts_of (cur : tspec) (err sy : Z) : timestamp :=
  let t := OWPTimespecToTimestamp (mkTS 0 0 0 0) cur (Some err) None in mkTS (owptime t) sy (multiplier t) (scale t).
Lemma rts_mult : forall cur err sy, 0 <= err < M32 -> multiplier (rts_of cur err sy) <> 0.
Proof.
  intros cur err sy He. unfold rts_of. cbn [multiplier]. unfold OWPTimespecToTimestamp. destruct (Z.eqb_spec err 0); [cbn; lia|].
  destruct (err_estimate_sound err ltac:(lia)) as (sc & mu & -> & M & _). cbn [multiplier]. lia.
Qed.

Section T.
Variable start timeout npackets : Z.
Variable delta : nat -> Z.
Hypothesis OK : rsession_ok start timeout npackets delta.
Local Notation tnext := (tnext start delta).
Local Notation lost := (tw_lost start).

Lemma write_lost2 : forall recs n er, multiplier er <> 0 -> write_tw recs (lost n er) = Some (recs ++ [lost n er]).
Proof.
  intros recs n er M. unfold write_tw. destruct (encode_twrec (lost n er)) eqn:Ee; [reflexivity|].
  exfalso. unfold encode_twrec in Ee.
  pose proof (encode_datarec_none (tw_sent (lost n er))) as A. pose proof (encode_datarec_none (tw_refl (lost n er))) as B.
  cbn [Twoway_Model.tw_lost tw_sent tw_refl r_send r_recv multiplier] in *.
  destruct (encode_datarec _); [|destruct (proj1 A eq_refl); [discriminate|congruence]].
  destruct (encode_datarec _); [discriminate|destruct (proj1 B eq_refl); congruence].
Qed.

Lemma flush_nofail : forall fuel j u er cur w recs, multiplier er <> 0 -> w <> [] -> (length w < fuel)%nat ->
  forall recs', tflush_loop start timeout npackets delta fuel j u er cur w recs <> TFErr recs'.
Proof.
  induction fuel as [|fuel IH]; intros j u er cur w recs M N L recs'; [lia|]. destruct w as [|b rest]; [congruence|]. cbn [tflush_loop]. cbn [length] in L.
  set (cur' := if usr2_seen u j then _ else cur). clearbody cur'.
  destruct (ts_lt (tw_expect timeout b) cur' && x_sent b); [|discriminate].
  assert (W: exists r1, (if x_hit b then Some recs else write_tw recs (lost b er)) = Some r1) by (destruct (x_hit b); [eauto|rewrite write_lost2 by exact M; eauto]).
  destruct W as (r1 & ->). destruct rest as [|c rest].
  - destruct (x_seq b + 1 <? npackets); [|discriminate].
    destruct fuel as [|fuel]; [cbn in L; lia|]. cbn [tflush_loop].
    replace (x_sent (tnext b)) with false by reflexivity. rewrite andb_false_r. discriminate.
  - apply IH; [exact M|discriminate|lia].
Qed.

Lemma flush_stop : forall fuel j u er cur w recs w' recs', Forall (fun n => norm (x_abs n)) w ->
  tflush_loop start timeout npackets delta fuel j u er cur w recs = TFGo w' recs' ->
  exists h r, w' = h :: r /\ (x_sent h = true -> (u <> None /\ ns_of timeout = 0) \/ (usr2_seen u j = false /\ ts_lt (tw_expect timeout h) cur = false)).
Proof using OK.
  destruct (Z.eq_dec 0 0) as [_|]; [|congruence].
  assert (T0: 0 <= ns_of timeout) by (destruct OK as (_ & Ht & _); unfold ns_of; apply Z.div_pos; lia).
  induction fuel as [|fuel IH]; intros j u er cur w recs w' recs' F; [discriminate|]. destruct w as [|b rest]; [discriminate|]. cbn [tflush_loop].
  apply Forall_cons_iff in F as [F1 F2]. destruct (texpect_ns start timeout npackets delta OK b F1) as [E1 E2].
  assert (CU: usr2_seen u j = false \/ (u <> None /\ usr2_seen u (S j) = true)).
  { destruct u as [k|]; [|now left]. unfold usr2_seen. destruct (Nat.leb_spec k j); [right|now left]. split; [discriminate|]. apply Nat.leb_le. lia. }
  assert (SE: usr2_seen u j = true -> x_sent b = true ->
    ts_lt (tw_expect timeout b) (ts_add (ts_add (0, 0) (tw_expect timeout b)) (tw_timeout timeout)) && x_sent b = false -> ns_of timeout = 0).
  { intros _ S. rewrite S, andb_true_r. assert (Z0: norm (0, 0)) by (red; cbn; lia). destruct (ts_add_ns _ _ Z0 E1) as [B1 B2].
    destruct OK as (_ & Ht & _). destruct (num64_ns timeout Ht) as [A1 A2]. fold (tw_timeout timeout) in A1, A2. destruct (ts_add_ns _ _ B1 A1) as [C1 C2].
    rewrite ts_lt_ns by auto. rewrite C2, B2, A2. unfold ns at 2. cbn [fst snd]. lia. }
  destruct (usr2_seen u j) eqn:SU.
  - assert (U: u <> None) by (destruct u; [discriminate|discriminate SU]).
    assert (SJ: usr2_seen u (S j) = true) by (destruct CU as [X|[_ X]]; [discriminate|exact X]).
    destruct (_ && x_sent b) eqn:EP.
    2: { intros X. injection X as <- <-. exists b, rest. split; [reflexivity|]. intros S. left. split; [exact U|]. apply SE; auto. }
    destruct (if x_hit b then Some recs else write_tw recs (lost b er)) as [r1|]; [|discriminate]. destruct rest as [|c rest].
    + destruct (x_seq b + 1 <? npackets); [|discriminate]. intros X. apply IH in X; [|constructor; [apply (abs_norm start)|constructor]].
      destruct X as (h & r & -> & Q). exists h, r. split; [reflexivity|]. intros S. destruct (Q S) as [Y|[Y _]]; [now left|congruence].
    + intros X. apply IH in X; [|exact F2]. destruct X as (h & r & -> & Q). exists h, r. split; [reflexivity|]. intros S. destruct (Q S) as [Y|[Y _]]; [now left|congruence].
  - destruct (ts_lt (tw_expect timeout b) cur && x_sent b) eqn:EP.
    2: { intros X. injection X as <- <-. exists b, rest. split; [reflexivity|]. intros S. right. split; [reflexivity|]. rewrite S, andb_true_r in EP. exact EP. }
    destruct (if x_hit b then Some recs else write_tw recs (lost b er)) as [r1|]; [|discriminate]. destruct rest as [|c rest].
    + destruct (x_seq b + 1 <? npackets); [|discriminate]. intros X. apply IH in X; [|constructor; [apply (abs_norm start)|constructor]].
      destruct X as (h & r & -> & Q). exists h, r. split; [reflexivity|]. intros S. destruct (Q S) as [Y|[_ Y]]; auto.
    + intros X. apply IH in X; [|exact F2]. destruct X as (h & r & -> & Q). exists h, r. split; [reflexivity|]. intros S. destruct (Q S) as [Y|[_ Y]]; auto.
Qed.

Lemma abs_rdue : forall rel q, rel = total delta (Z.to_nat q) mod M64 -> ns (abs_of start rel) = rdue start delta q.
Proof.
  intros rel q ->. unfold Receiver_Model.abs_of, OWPTimestampToTimespec. cbn [owptime].
  unfold OWPNum64Sub, OWPNum64Add, u64. rewrite JAN_eq. unfold JAN_1970.
  match goal with |- ns (OWPNum64ToTimespec ?y) = _ => assert (Hy: 0 <= y < M64) by (apply Z.mod_pos_bound; lia) end.
  destruct (num64_ns _ Hy) as [N1 N2]. rewrite N2. unfold rdue. rewrite Zminus_mod_idemp_l. rewrite <- Z.add_sub_assoc. rewrite Z.add_mod_idemp_l by lia. f_equal. f_equal. lia.
Qed.

(** after a flush at a time when all timeouts are over, every packet sent is accounted for *)
Lemma flush_all : forall b f w recs out skip u er cur, core start npackets delta b f w recs out skip -> w <> [] -> clock_ok cur -> multiplier er <> 0 ->
  (forall n, In n w -> x_seq n < f -> x_sent n = true) ->
  (u = Some 0%nat /\ 0 < ns_of timeout) \/ ((u = None \/ 0 < ns_of timeout) /\
    (forall s, In s out -> was_sent (s_res s) = true -> ns (s_time s) + ns_of timeout < ns cur) /\ (forall q, In q (map fst skip) -> rdue start delta q + ns_of timeout < ns cur)) ->
  exists b' w' recs', (tflush_lost start timeout npackets delta u er cur w recs = TFGo w' recs' \/ (tflush_lost start timeout npackets delta u er cur w recs = TFOver recs' /\ w' = [])) /\
    core start npackets delta b' f w' recs' out skip /\ f <= b'.
Proof using OK.
  intros b f w recs out skip u er cur C N CK M AS X.
  destruct (flush_core start timeout npackets delta u er cur b f w recs out skip C N) as (k & K1 & K2 & K3).
  assert (NF: forall r, tflush_lost start timeout npackets delta u er cur w recs <> TFErr r).
  { intros r. unfold tflush_lost. pose proof (c_w _ _ _ _ _ _ _ _ _ C) as W. destruct (tw_last npackets delta w b W N) as (L1 & L2 & _).
    destruct w as [|n0 w0]; [congruence|]. apply flush_nofail; [exact M|discriminate|]. destruct W as (W & _). destruct L1 as (L1 & _). lia. }
  assert (FS: forall w' recs', tflush_lost start timeout npackets delta u er cur w recs = TFGo w' recs' ->
    exists h r, w' = h :: r /\ (x_sent h = true -> (u <> None /\ ns_of timeout = 0) \/ (usr2_seen u 0 = false /\ ts_lt (tw_expect timeout h) cur = false))).
  { intros w' recs' E. unfold tflush_lost in E. destruct w as [|n0 w0] eqn:EW; [congruence|]. eapply flush_stop; [|exact E]. apply Forall_forall. intros n I.
    pose proof (tw_in npackets delta _ _ _ (c_w _ _ _ _ _ _ _ _ _ C) I) as (_ & _ & _ & T). exact T. }
  destruct (tflush_lost start timeout npackets delta u er cur w recs) as [w' recs'|recs'|recs']; [| |now destruct (NF recs')].
  - destruct K3 as (R & N' & C' & B' & _). exists (b + Z.of_nat k), w', recs'. split; [now left|]. split; [exact C'|].
    destruct (FS w' recs' eq_refl) as (h & r & -> & Q). pose proof (c_w _ _ _ _ _ _ _ _ _ C') as W'. destruct W' as (W1 & W2 & _).
    destruct (Z_le_dec f (b + Z.of_nat k)) as [l|l]; [exact l|exfalso].
    assert (SH: x_sent h = true).
    { destruct B' as [[B1 B2]|[B1 B2]].
      - apply AS; [|lia]. rewrite <- (firstn_skipn k w), <- B2. apply in_or_app. right. now left.
      - pose proof (c_f _ _ _ _ _ _ _ _ _ C). lia. }
    destruct (texpect_ns start timeout npackets delta OK h (proj2 (proj2 W2))) as [E1 E2].
    destruct (Q SH) as [[Q1 Q2]|[Q1 Q2]].
    + destruct X as [[_ X]|[[X|X] _]]; [lia|congruence|lia].
    + destruct X as [[X _]|(_ & X1 & X2)]; [rewrite X in Q1; discriminate|].
      rewrite ts_lt_ns in Q2 by auto using norm_clock. rewrite E2 in Q2.
      destruct (proj2 (proj2 (proj2 (c_n _ _ _ _ _ _ _ _ _ C' h (or_introl eq_refl)))) SH) as [(A & _ & B)|(s & S1 & S2 & S3 & S4)].
      * rewrite B in Q2. rewrite (abs_rdue (x_rel h) (x_seq h)) in Q2 by apply (proj1 (proj2 W2)). specialize (X2 _ A). lia.
      * specialize (X1 s S1 S3). rewrite S4 in X1. lia.
  - destruct K3 as (R & C' & B'). exists (b + Z.of_nat k), [], recs'. split; [now right|]. split; [exact C'|]. pose proof (c_f _ _ _ _ _ _ _ _ _ C') as X1. cbn [length] in X1. lia.
Qed.

Lemma past_recorded : forall b f w recs out skip s, core start npackets delta b f w recs out skip -> f <= b -> In s out -> was_sent (s_res s) = true ->
  ~ In (s_seq s) (map fst skip) -> (1 <= tw_lost_of (s_seq s) recs + tw_received_of (s_seq s) recs)%nat.
Proof.
  intros b f w recs out skip s C L I W NS. destruct (c_out _ _ _ _ _ _ _ _ _ C s I W) as [A _].
  destruct (c_past _ _ _ _ _ _ _ _ _ C (s_seq s) ltac:(lia)) as [(X & _)|(_ & [X|X])]; [lia|lia|contradiction].
Qed.
End T.
