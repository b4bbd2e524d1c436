From Coq Require Import ZArith List Bool Lia ZifyBool ZifyNat Sorted.
From Verif Require Import Base BaseLemmas Arith_Model Arith_Proofs Time_Model Time_Proofs Wire_Model Wire_Spec Wire_Proofs
  Control_Model Packet_Model Sender_Spec Sender_Proofs Receiver_Model Receiver_Spec Receiver_Proofs.
Import ListNotations.
Open Scope Z_scope.
Ltac Zify.zify_post_hook ::= Z.div_mod_to_equations.

(** ** parsed packets have 32-bit numbers and 64-bit times *)
Lemma lxor_octet : forall a b, 0 <= a < 256 -> 0 <= b < 256 -> 0 <= Z.lxor a b < 256.
Proof.
  intros a b Ha Hb. assert (N: 0 <= Z.lxor a b) by (apply Z.lxor_nonneg; lia). split; [exact N|].
  destruct (Z.eq_dec (Z.lxor a b) 0) as [->|nz]; [lia|].
  apply (Z.log2_lt_pow2 _ 8); [lia|].
  pose proof (Z.log2_lxor a b ltac:(lia) ltac:(lia)).
  assert (Hl: forall x, 0 <= x < 256 -> Z.log2 x < 8).
  { intros x Hx. destruct (Z.eq_dec x 0) as [->|]; [cbn; lia|]. apply Z.log2_lt_pow2; cbn; lia. }
  pose proof (Hl a Ha). pose proof (Hl b Hb). lia.
Qed.
Lemma xor_octets_ok : forall a b, octets a -> octets b -> octets (xor_octets a b).
Proof.
  induction a as [|x a IH]; intros b Ha Hb; destruct b as [|y b]; cbn [xor_octets]; try constructor.
  - inversion Ha; inversion Hb; subst. now apply lxor_octet.
  - inversion Ha; inversion Hb; subst. now apply IH.
Qed.
Lemma firstn_octets : forall n l, octets l -> octets (firstn n l).
Proof. intros n l O. unfold octets in *. rewrite Forall_forall in *. intros x Hx. apply O. rewrite <- (firstn_skipn n l). apply in_or_app. auto. Qed.
Lemma skipn_octets : forall n l, octets l -> octets (skipn n l).
Proof. intros n l O. unfold octets in *. rewrite Forall_forall in *. intros x Hx. apply O. rewrite <- (firstn_skipn n l). apply in_or_app. auto. Qed.

Lemma cbc_dec_octets : forall D k, (forall b, octets b -> octets (D k b)) -> forall nb iv l, octets iv -> octets l -> octets (fst (cbc_dec D k iv nb l)) /\ octets (snd (cbc_dec D k iv nb l)).
Proof.
  intros D k HD. induction nb as [|nb IH]; intros iv l Hi Hl; cbn [cbc_dec fst snd]; [split; [constructor|auto]|].
  destruct (IH (firstn 16 l) (skipn 16 l) (firstn_octets _ _ Hl) (skipn_octets _ _ Hl)) as [I1 I2].
  destruct (cbc_dec D k (firstn 16 l) nb (skipn 16 l)) as [r iv']. cbn [fst snd] in *.
  split; [|auto]. apply Forall_app. split; [apply xor_octets_ok; auto using firstn_octets|auto].
Qed.

Lemma decode_ts_u64 : forall t b, octets b -> is_u64 (owptime (decode_timestamp t b)).
Proof.
  intros t b O. unfold decode_timestamp. cbn [owptime].
  assert (O2: octets (sub 4 4 b)) by now apply sub_octets.
  pose proof (be_dec_bound _ O2) as B2.
  assert (L2: (length (sub 4 4 b) <= 4)%nat) by (unfold sub; rewrite firstn_length; lia).
  assert (B3: 0 <= be_dec (sub 4 4 b) < M32).
  { split; [lia|]. eapply Z.lt_le_trans; [apply B2|]. change M32 with (256 ^ 4). apply Z.pow_le_mono_r; lia. }
  set (y := be_dec (sub 4 4 b)) in *. unfold u64.
  set (x := be_dec (sub 0 4 b)) in *.
  replace ((x * M32) mod M64) with ((x mod M32) * M32) by lia.
  assert (0 <= x mod M32 < M32) by (apply Z.mod_pos_bound; lia). set (z := x mod M32) in *. clearbody z y. clear x.
  replace (Z.lor (z * M32) y) with (z * M32 + y); [red; lia|].
  rewrite <- Z.lxor_lor.
  2:{ apply Z.bits_inj'. intros n Hn. rewrite Z.bits_0, Z.land_spec. change M32 with (2^32).
      destruct (Z.ltb_spec n 32).
      - rewrite Z.mul_pow2_bits_low by lia. reflexivity.
      - replace (Z.testbit y n) with false; [apply andb_false_r|].
        symmetry. destruct (Z.eq_dec y 0) as [->|]; [apply Z.bits_0|]. apply Z.bits_above_log2; [lia|].
        assert (Z.log2 y < 32) by (apply Z.log2_lt_pow2; [lia|exact (proj2 B3)]). lia. }
  apply Z.add_nocarry_lxor.
  apply Z.bits_inj'. intros n Hn. rewrite Z.bits_0, Z.land_spec. change M32 with (2^32).
  destruct (Z.ltb_spec n 32).
  - rewrite Z.mul_pow2_bits_low by lia. reflexivity.
  - replace (Z.testbit y n) with false; [apply andb_false_r|].
    symmetry. destruct (Z.eq_dec y 0) as [->|]; [apply Z.bits_0|]. apply Z.bits_above_log2; [lia|].
    assert (Z.log2 y < 32) by (apply Z.log2_lt_pow2; [lia|exact (proj2 B3)]). lia.
Qed.

Lemma parse_u64 : forall D H mode k hk pay seq t v, (forall b, octets b -> octets (D k b)) -> octets pay ->
  parse_packet D H mode k hk pay = PPacket seq t v -> is_u64 (owptime t).
Proof.
  intros D H mode k hk pay seq t v HD O P. unfold parse_packet in P.
  assert (G: forall p to eo sq tt vv, octets p ->
    (let t := decode_timestamp (mkTS 0 0 0 0) (sub to 8 p) in
     let '(t, _, ok) := decode_errest t (sub eo 2 p) in PPacket (be_dec (sub 0 4 p)) t ok) = PPacket sq tt vv -> is_u64 (owptime tt)).
  { intros p to eo sq tt vv Op Q. cbn zeta in Q. unfold decode_errest in Q.
    apply (f_equal (fun p => match p with PPacket _ t _ => owptime t | _ => 0 end)) in Q. cbv beta iota in Q. cbn [owptime] in Q.
    rewrite <- Q. apply decode_ts_u64. now apply sub_octets. }
  destruct (mode =? MODE_OPEN); [eapply G; [|exact P]; auto|].
  destruct (cbc_dec_octets D k HD 1 (zeros 16) (sub 0 16 pay) (zeros_octets 16) (sub_octets _ _ _ O)) as [C1 C2].
  destruct (cbc_dec D k (zeros 16) 1 (sub 0 16 pay)) as [p1 iv]. cbn [fst snd] in C1, C2.
  assert (O1: octets (put 0 p1 pay)) by now apply put_octets.
  destruct (mode =? MODE_ENCR).
  - destruct (cbc_dec_octets D k HD 1 iv (sub 16 16 (put 0 p1 pay)) C2 (sub_octets _ _ _ O1)) as [C3 _].
    destruct (cbc_dec D k iv 1 (sub 16 16 (put 0 p1 pay))) as [p2 iv2]. cbn [fst] in C3.
    destruct (eqb_octets _ _); [|discriminate]. eapply G; [|exact P]. now apply put_octets.
  - destruct (eqb_octets _ _); [|discriminate]. eapply G; [|exact P]. auto.
Qed.

Lemma diff_within : forall d a b, is_u64 a -> is_u64 b -> OWPNum64Diff a b <= d <-> within d a b.
Proof.
  unfold OWPNum64Diff, within, is_u64, u64. intros d a b Ha Hb. destruct (Z.ltb_spec b a); rewrite Z.mod_small by lia; lia.
Qed.

Section R.
Variable D : list Z -> list Z -> list Z.
Variable H : list Z -> list Z -> list Z.
Variable mode : Z.
Variable aeskey hmackey : list Z.
Variable start timeout npackets : Z.
Variable delta : nat -> Z.
Variable fudge : tspec.
Hypothesis OK : rsession_ok start timeout npackets delta.
Hypothesis Doct : forall b, octets b -> octets (D aeskey b).

Local Notation expect_of := (expect_of timeout).
Local Notation win_ok := (win_ok start npackets delta).
Local Notation node_ok := (node_ok start npackets delta).
Local Notation parse := (parse_packet D H mode aeskey hmackey).

(** the time stamp of a clock reading *)
Definition sv (t : tspec) : Z := (fst t + 2208988800) mod M32 * M32 + snd t * M32 / 1000000000.

Definition rx_ok (e : renv) : Prop := match re_rx e with RxData _ pay _ => octets pay | _ => True end.
Definition env_ok (e : renv) : Prop := reading_ok (re_clock e) /\ rx_ok e.

Definition lost_good (r : datarec) : Prop :=
  0 <= r_seq r < npackets /\ owptime (r_send r) = sched_stamp start delta (r_seq r) /\ r_ttl r = 255.
Definition recv_good (es : list renv) (r : datarec) : Prop :=
  exists e pay cur err sy, In e es /\ re_rx e = RxData true pay (r_ttl r) /\ re_clock e = Some (cur, err, sy) /\
    parse pay = PPacket (r_seq r) (r_send r) true /\ owptime (r_recv r) = sv cur /\
    0 <= r_seq r < npackets /\ within timeout (owptime (r_send r)) (owptime (r_recv r)) /\
    exists x, (sched_stamp start delta (r_seq r) - x) mod M64 <= 5 /\ within timeout (owptime (r_send r)) x.
Definition rok (es : list renv) (r : datarec) : Prop := if is_lost r then lost_good r else recv_good es r.
Definition lost_exp (cl : option (tspec * Z * Z)) (es : list renv) (r : datarec) : Prop :=
  is_lost r = true -> exists t er sy, In (Some (t, er, sy)) (cl :: map re_clock es) /\ expired start timeout delta (r_seq r) t.
Definition unseen (u : option nat) (es : list renv) : Prop := u = None /\ Forall (fun e => re_usr2 e = None) es.

Lemma rok_mono : forall es e r, rok es r -> rok (es ++ [e]) r.
Proof.
  intros es e r. unfold rok, recv_good. destruct (is_lost r); auto.
  intros (e0 & pay & cur & err & sy & I & Q). exists e0, pay, cur, err, sy. split; [apply in_or_app; auto|exact Q].
Qed.
Lemma lost_exp_mono : forall cl es e r, lost_exp cl es r -> lost_exp cl (es ++ [e]) r.
Proof.
  intros cl es e r L Hl. destruct (L Hl) as (t & er & sy & I & Q). exists t, er, sy. split; [|exact Q].
  destruct I as [I|I]; [left; auto|right]. rewrite map_app. apply in_or_app. auto.
Qed.

(** state invariant; [b]: first number of the queue *)
Definition winv (b : Z) (cl : option (tspec * Z * Z)) (u : option nat) (es : list renv) (st : rstate) : Prop :=
  0 <= b /\ win_ok b (r_win st) /\ r_win st <> [] /\ acct b (r_win st) (r_recs st) /\ Forall (rok es) (r_recs st) /\
  (unseen u es -> Forall (lost_exp cl es) (r_recs st) /\ (exists n r, r_win st = n :: r /\ ts_lt (expect_of n) (r_cur st) = false)) /\
  (exists er sy, last_clock cl es = Some (r_cur st, er, sy)).

Definition good_end (b : Z) (w : list node) (es : list renv) (recs : list datarec) : Prop :=
  acct b w recs /\ Forall (rok es) recs.

Lemma reading_stamp : forall t l cur err sy, reading_ok (Some (cur, err, sy)) ->
  owptime (stamp t l cur err sy) = sv cur /\ sv cur <> 0 /\ is_u64 (sv cur).
Proof.
  intros t l [s n] err sy ((C1 & C2) & NZ & _). cbn [fst snd] in *. unfold stamp. cbn [owptime].
  rewrite epoch_value by lia. unfold sv. cbn [fst snd]. split; [reflexivity|]. split; [exact NZ|].
  red. change (10^9) with 1000000000 in *.
  assert (0 <= n * M32 / 1000000000 < M32) by (split; [apply Z.div_pos; lia|apply Z.div_lt_upper_bound; lia]).
  pose proof (Z.mod_pos_bound (s + 2208988800) M32 ltac:(lia)). lia.
Qed.

Lemma lost_rec_good : forall n er, node_ok n -> is_lost (lost_rec start n er) = true /\ lost_good (lost_rec start n er).
Proof.
  intros n er (A & B & _). split; [reflexivity|]. unfold lost_good, lost_rec. cbn [r_seq r_send owptime r_ttl]. repeat split; try lia.
  rewrite B. unfold OWPNum64Add, u64, sched_stamp. now rewrite Z.add_mod_idemp_r by lia.
Qed.

Lemma sched_mod : forall n, node_ok n -> (sched_stamp start delta (n_seq n)) = (n_rel n + start) mod M64.
Proof. intros n (A & B & _). rewrite B. unfold sched_stamp. rewrite Z.add_mod_idemp_l by lia. f_equal. lia. Qed.

(** ** packets *)
Lemma packet_ok : forall b cl u es e st pay ttl cur err sy,
  env_ok e -> re_rx e = RxData true pay ttl -> re_clock e = Some (cur, err, sy) ->
  winv b cl u (es ++ [e]) st -> owptime (r_stamp st) = sv cur ->
  match r_packet D H mode aeskey hmackey start timeout npackets delta st pay ttl with
  | RGo st' => winv b cl u (es ++ [e]) st'
  | ROver _ => False
  | RErr recs => recs = r_recs st
  end.
Proof.
  intros b cl u es e st pay ttl cur err sy (EO & RX) Erx Ecl (B0 & W & N & A & F & S & L) Est.
  unfold r_packet. destruct (parse pay) as [|seq send valid] eqn:P; [unfold winv; tauto|].
  destruct (Z.leb_spec npackets seq) as [|Hs]; [reflexivity|].
  destruct (r_win st) as [|n0 w0] eqn:Ew; [congruence|]. pose proof W as (Es0 & _ & _). rewrite Es0.
  destruct (Z.ltb_spec seq b) as [|Hb]; [unfold winv; rewrite Ew; tauto|].
  destruct (get_node_ok start npackets delta (n0 :: w0) b seq W N ltac:(lia)) as (ext & n & G & W' & X & I & Es & NK).
  rewrite G.
  assert (A' : acct b ((n0 :: w0) ++ ext) (r_recs st)) by (eapply acct_extend; eauto).
  assert (Inv': winv b cl u (es ++ [e]) (mkRS ((n0 :: w0) ++ ext) (r_recs st) (r_stamp st) (r_lasterr st) (r_cur st))).
  { unfold winv. cbn [r_win r_recs r_cur]. repeat (split; [first [assumption|discriminate]|]). split; [|exact L].
    intros U. destruct (S U) as [S1 (n1 & r1 & S2 & S3)]. split; [exact S1|]. exists n0, (w0 ++ ext). split; [reflexivity|].
    inversion S2; subst. exact S3. }
  cbn [r_recs r_stamp r_lasterr r_cur].
  destruct (negb valid) eqn:V; [reflexivity|]. apply negb_false_iff in V. subst valid.
  set (x := owptime (OWPTimespecToTimestamp _ (n_abs n) None None)).
  destruct (Z.ltb_spec timeout (OWPNum64Diff (owptime send) (owptime (r_stamp st)))) as [|D1]; [exact Inv'|].
  destruct (Z.ltb_spec timeout (OWPNum64Diff (owptime send) x)) as [|D2]; [exact Inv'|].
  destruct (write_rec (r_recs st) (mkRec seq send (r_stamp st) ttl)) as [recs|] eqn:Wr; [|reflexivity].
  apply write_some in Wr. subst recs.
  assert (RO: reading_ok (Some (cur, err, sy))) by (rewrite <- Ecl; exact EO).
  destruct (reading_stamp (r_stamp st) 0 cur err sy RO) as (_ & NZ & U64).
  set (r := mkRec seq send (r_stamp st) ttl).
  assert (NL: is_lost r = false) by (unfold is_lost, r; cbn [r_recv]; rewrite Est; now apply Z.eqb_neq).
  unfold rx_ok in RX. rewrite Erx in RX.
  pose proof (parse_u64 _ _ _ _ _ _ _ _ _ Doct RX P) as PU.
  assert (XU: is_u64 x) by (unfold x; rewrite owptime_ToTimestamp; unfold OWPNum64Add, u64; red; apply Z.mod_pos_bound; lia).
  assert (Lw: seq < b + Z.of_nat (length ((n0 :: w0) ++ ext))).
  { pose proof (win_in _ _ _ _ _ _ W' I). lia. }
  unfold winv. cbn [r_win r_recs r_cur]. split; [exact B0|]. split; [now apply set_hit_win|].
  split; [discriminate|]. split; [apply acct_hit with (npackets := npackets) (start := start) (delta := delta); auto|].
  split; [|split; [|exact L]].
  - apply Forall_app. split; [exact F|]. constructor; [|constructor]. unfold rok. rewrite NL.
    exists e, pay, cur, err, sy. unfold r. cbn [r_seq r_send r_recv r_ttl].
    split; [apply in_or_app; right; left; reflexivity|]. split; [exact Erx|]. split; [exact Ecl|]. split; [exact P|].
    split; [exact Est|]. split; [lia|].
    split; [apply diff_within; auto; rewrite Est; exact U64|].
    exists x. split; [|now apply diff_within].
    unfold x. rewrite <- Es, (sched_mod n NK). destruct NK as (_ & _ & NA). rewrite NA. unfold abs_of.
    exact (epoch_back (mkTS 0 0 0 0) (mkTS (OWPNum64Add (n_rel n) start) 0 0 0) None None
             (Z.mod_pos_bound (n_rel n + start) M64 ltac:(lia))).
  - intros U. destruct (S U) as [S1 (n1 & r1 & S2 & S3)]. split.
    + apply Forall_app. split; [exact S1|]. constructor; [|constructor]. intros Hl. rewrite NL in Hl. discriminate.
    + exists (if n_seq n0 =? seq then mkNode (n_seq n0) (n_rel n0) (n_abs n0) true else n0), (set_hit seq (w0 ++ ext)).
      split; [reflexivity|]. inversion S2; subst. destruct (n_seq n1 =? _); exact S3.
Qed.

(** ** clock reading and flush *)
Lemma flush_inv : forall (Str : Prop) cl es u' b w recs t cur er sy,
  (Str -> u' = None) -> In (Some (cur, er, sy)) (cl :: map re_clock es) -> norm cur ->
  win_ok b w -> w <> [] -> acct b w recs -> Forall (rok es) recs -> (Str -> Forall (lost_exp cl es) recs) ->
  match flush_lost start timeout npackets delta u' t cur w recs with
  | FErr recs' => (exists b' w', acct b' w' recs') /\ Forall (rok es) recs' /\ multiplier t = 0
  | FOver recs' => acct npackets [] recs' /\ Forall (rok es) recs'
  | FGo w' recs' => exists b', b <= b' /\ win_ok b' w' /\ w' <> [] /\ acct b' w' recs' /\ Forall (rok es) recs' /\
      (Str -> Forall (lost_exp cl es) recs') /\
      (u' = None \/ 0 < ns_of timeout -> exists n r, w' = n :: r /\ ts_lt (expect_of n) cur = false)
  end.
Proof.
  intros Str cl es u' b w recs t cur er sy SU I Nc W N A F L.
  pose proof (flush_ok start timeout npackets delta OK (fun r => rok es r /\ (Str -> lost_exp cl es r)) u' t cur w recs b) as P.
  assert (Split: forall l, Forall (fun r => rok es r /\ (Str -> lost_exp cl es r)) l -> Forall (rok es) l /\ (Str -> Forall (lost_exp cl es) l)).
  { intros l Hl. split; [|intros Hs]; (eapply Forall_impl; [|exact Hl]); cbn; intros r [R1 R2]; auto. }
  assert (P': flush_post start timeout npackets delta (fun r => rok es r /\ (Str -> lost_exp cl es r)) u' 0 t cur b (flush_lost start timeout npackets delta u' t cur w recs)).
  { apply P; auto.
    - intros n cur' NK Hc T. destruct (lost_rec_good n t NK) as [G1 G2]. split; [unfold rok; rewrite G1; exact G2|].
      intros Hs _. rewrite (Hc (SU Hs)) in T. exists cur, er, sy. split; [exact I|].
      destruct (expect_ns start timeout npackets delta OK n NK) as [X1 X2]. rewrite ts_lt_ns in T by auto. rewrite X2 in T.
      unfold expired. cbn [r_seq lost_rec]. lia.
    - apply Forall_forall. intros r Hr. split; [exact (proj1 (Forall_forall _ _) F r Hr)|]. intros Hs. exact (proj1 (Forall_forall _ _) (L Hs) r Hr). }
  clear P. destruct (flush_lost _ _ _ _ _ _ _ _ _) as [w' recs'|recs'|recs']; cbn [flush_post] in P'.
  - destruct P' as (b' & Q1 & Q2 & Q3 & Q4 & Q5 & Q6). destruct (Split _ Q5) as [S1 S2]. exists b'.
    repeat (split; [assumption|]). intros Hu. destruct (Q6 Hu) as [_ X]. exact X.
  - destruct P' as (Q1 & Q2). destruct (Split _ Q2) as [S1 _]. auto.
  - destruct P' as (Q1 & Q2 & Q3). destruct (Split _ Q2) as [S1 _]. auto.
Qed.

Lemma last_clock_snoc : forall cl es e, last_clock cl (es ++ [e]) = re_clock e.
Proof. intros. unfold last_clock. rewrite map_app. cbn [map]. apply last_last. Qed.

Definition pass_post (b : Z) (cl : option (tspec * Z * Z)) (u : option nat) (es : list renv) (e : renv) (o : rstep) : Prop :=
  match o with
  | RGo st' => exists b', b <= b' /\ winv b' cl u (es ++ [e]) st' /\ re_chk4 e = CNone
  | ROver st' => exists b', b <= b' /\ acct b' (r_win st') (r_recs st') /\ Forall (rok (es ++ [e])) (r_recs st') /\
      (r_win st' = [] -> b' = npackets) /\
      (re_chk1 e = CNone -> re_chk2 e = CNone -> re_chk3 e = CNone -> 0 < ns_of timeout ->
        r_win st' = [] \/ exists n r cur er sy, re_clock e = Some (cur, er, sy) /\ r_win st' = n :: r /\ win_ok b' (r_win st') /\ ts_lt (expect_of n) cur = false) /\
      (re_chk1 e = CNone -> re_chk2 e = CNone -> re_chk3 e = CNone -> re_usr2 e = Some 0%nat -> 0 < ns_of timeout -> b' = npackets)
  | RErr recs => exists b' w', acct b' w' recs /\ Forall (rok (es ++ [e])) recs
  end.

Lemma flush_usr2_all : forall t cur w recs b, win_ok b w -> w <> [] -> acct b w recs -> 0 < ns_of timeout ->
  forall w' recs', flush_lost start timeout npackets delta (Some 0%nat) t cur w recs <> FGo w' recs'.
Proof.
  intros t cur w recs b W N A Ht w' recs' E.
  pose proof (flush_ok start timeout npackets delta OK (fun _ => True) (Some 0%nat) t cur w recs b) as P.
  rewrite E in P. cbn [flush_post] in P.
  destruct P as (b' & _ & _ & _ & _ & _ & Q); auto.
  - clear. induction recs; constructor; auto.
  - destruct (Q (or_intror Ht)) as [U _]. discriminate.
Qed.

Lemma pass_ok : forall b cl u es e st, winv b cl u es st -> env_ok e ->
  pass_post b cl u es e (r_pass D H mode aeskey hmackey start timeout npackets delta fudge st e).
Proof.
  intros b cl u es e st Inv EO. pose proof Inv as (B0 & W & N & A & F & S & L).
  assert (F': Forall (rok (es ++ [e])) (r_recs st)) by (eapply Forall_impl; [intros r; apply rok_mono|exact F]).
  assert (ErrPost: pass_post b cl u es e (RErr (r_recs st))) by (cbn [pass_post]; eauto).
  assert (OverPost: (re_chk1 e = CNone -> re_chk2 e = CNone -> re_chk3 e = CNone -> False) -> pass_post b cl u es e (ROver st)).
  { intros Hn. cbn [pass_post]. exists b. split; [lia|]. split; [exact A|]. split; [exact F'|]. split; [intros; congruence|].
    split; intros; exfalso; auto. }
  unfold r_pass. destruct (fst (wake timeout fudge st) <? 0); [exact ErrPost|].
  unfold checked at 1. destruct (re_chk1 e) eqn:C1; [|exact ErrPost|apply OverPost; discriminate].
  assert (G: pass_post b cl u es e (checked (re_chk2 e) st
    (r_clock start timeout npackets delta st (re_clock e) (re_chk3 e) (re_usr2 e)
      (fun st0 => checked (re_chk4 e) st0 match re_rx e with
         | RxData true pay ttl => r_packet D H mode aeskey hmackey start timeout npackets delta st0 pay ttl
         | _ => RGo st0 end)))).
  2:{ destruct (re_rx e) as [|[|]|]; auto. }
  unfold checked at 1. destruct (re_chk2 e) eqn:C2; [|exact ErrPost|apply OverPost; discriminate].
  unfold r_clock. destruct (re_clock e) as [[[cur er] sy]|] eqn:Ec; [|exact ErrPost].
  unfold checked at 1. destruct (re_chk3 e) eqn:C3; [|exact ErrPost|apply OverPost; discriminate].
  clear OverPost ErrPost. cbn zeta.
  assert (RO: reading_ok (Some (cur, er, sy))) by (rewrite <- Ec; apply EO).
  assert (Nc: norm cur) by (destruct RO as ((_ & X) & _); exact X).
  assert (I: In (Some (cur, er, sy)) (cl :: map re_clock (es ++ [e]))).
  { right. rewrite map_app, in_app_iff. right. cbn [map]. rewrite Ec. left; reflexivity. }
  set (t := stamp (r_stamp st) (r_lasterr st) cur er sy).
  destruct (reading_stamp (r_stamp st) (r_lasterr st) cur er sy RO) as (Ts & _ & _). fold t in Ts.
  assert (SU: unseen u (es ++ [e]) -> re_usr2 e = None).
  { intros (_ & U). rewrite Forall_app in U. destruct U as [_ U]. inversion U; auto. }
  assert (SL: unseen u (es ++ [e]) -> Forall (lost_exp cl (es ++ [e])) (r_recs st)).
  { intros (U0 & U). rewrite Forall_app in U. destruct U as [U1 U2].
    destruct (S (conj U0 U1)) as [S1 _]. eapply Forall_impl; [intros r; apply lost_exp_mono|exact S1]. }
  pose proof (flush_inv (unseen u (es ++ [e])) cl (es ++ [e]) (re_usr2 e) b (r_win st) (r_recs st) t cur er sy SU I Nc W N A F' SL) as P.
  pose proof (flush_usr2_all t cur (r_win st) (r_recs st) b W N A) as UA.
  destruct (flush_lost start timeout npackets delta (re_usr2 e) t cur (r_win st) (r_recs st)) as [w' recs'|recs'|recs'] eqn:Fl.
  - destruct P as (b' & Q1 & Q2 & Q3 & Q4 & Q5 & Q6 & Q7).
    assert (Inv': winv b' cl u (es ++ [e]) (mkRS w' recs' t er cur)).
    { unfold winv. cbn [r_win r_recs r_cur]. split; [lia|]. repeat (split; [assumption|]). split.
      - intros U. split; [auto|]. apply Q7. left. auto.
      - exists er, sy. rewrite last_clock_snoc. exact Ec. }
    unfold checked. destruct (re_chk4 e) eqn:C4.
    + destruct (re_rx e) as [|?|peer pay ttl] eqn:Erx; try (cbn [pass_post]; exists b'; auto; fail).
      destruct peer; [|cbn [pass_post]; exists b'; auto].
      pose proof (packet_ok b' cl u es e (mkRS w' recs' t er cur) pay ttl cur er sy EO Erx Ec Inv' Ts) as PK.
      destruct (r_packet _ _ _ _ _ _ _ _ _ _ pay ttl) as [st'|st'|recs2]; [|destruct PK|].
      * cbn [pass_post]. exists b'. auto.
      * cbn [pass_post]. subst recs2. cbn [r_recs]. exists b', w'. auto.
    + cbn [pass_post r_recs]. exists b', w'. auto.
    + cbn [pass_post r_recs r_win]. exists b'. split; [lia|]. split; [exact Q4|]. split; [exact Q5|]. split; [congruence|]. split.
      * intros _ _ _ Ht. right. destruct (Q7 (or_intror Ht)) as (n & r & E1 & E2). exists n, r, cur, er, sy. auto.
      * intros _ _ _ U0 Ht. exfalso. rewrite U0 in Fl. exact (UA Ht _ _ Fl).
  - destruct P as [Q1 Q2]. cbn [pass_post r_recs r_win]. exists npackets.
    split.
    { destruct (r_win st) as [|n0 w0] eqn:Ew; [congruence|]. destruct W as (E0 & (K1 & _) & _). lia. }
    split; [exact Q1|]. split; [exact Q2|]. split; [auto|]. split; [intros; auto|auto].
  - destruct P as ((b' & w' & Q1) & Q2 & _). cbn [pass_post]. exists b', w'. auto.
Qed.

(** ** whole runs *)
Local Notation r_loop := (r_loop D H mode aeskey hmackey start timeout npackets delta fudge).
Local Notation run := (run_receiver D H mode aeskey hmackey start timeout npackets delta fudge).

Lemma start_ok : forall cl u, reading_ok cl ->
  match r_start start timeout npackets delta cl u with
  | RGo st => exists b, winv b cl u [] st
  | ROver st => r_win st = [] /\ acct npackets [] (r_recs st) /\ Forall (rok []) (r_recs st)
  | RErr recs => exists b w, acct b w recs /\ Forall (rok []) recs
  end.
Proof.
  intros cl u RO. unfold r_start. destruct OK as (Hs & Ht & Hn & Hd).
  assert (A0: forall b w, acct b w [] <-> (forall q, 0 <= q < b -> False) /\ (forall n, In n w -> n_hit n = false)).
  { intros b w. unfold acct, classified, lost_of, received_of, lost_seqs. cbn [filter length map]. split.
    - intros (X1 & _ & X3 & _). split.
      + intros q Hq. specialize (X1 q Hq). lia.
      + intros n In0. destruct (n_hit n) eqn:Hh; auto. apply X3 in Hh; auto. lia.
    - intros (X1 & X2). repeat split; auto; try (intros; exfalso; eauto; fail); try lia.
      + intros Hh. rewrite X2 in Hh by auto. discriminate.
      + constructor. }
  assert (AE: acct 0 [] []) by (apply A0; split; [lia|intros n []]).
  destruct (Z.leb_spec npackets 0); [exists 0, []; auto|]. unfold r_clock.
  destruct cl as [[[cur er] sy]|]; [|exists 0, []; cbn [r_recs]; auto]. unfold checked. cbn [r_win r_recs].
  set (n0 := mkNode 0 _ _ false). set (t := stamp _ _ cur er sy).
  assert (NK: node_ok n0).
  { unfold n0, Receiver_Proofs.node_ok. cbn [n_seq n_rel n_abs]. split; [lia|]. split; [|reflexivity]. cbn [Z.to_nat total].
    symmetry. apply Z.mod_small. apply Hd. }
  assert (W: win_ok 0 [n0]) by (cbn [Receiver_Proofs.win_ok]; repeat split; auto; apply NK).
  pose proof (flush_inv (u = None) (Some (cur, er, sy)) [] u 0 [n0] [] t cur er sy (fun x => x) (or_introl eq_refl)) as P.
  destruct RO as (CO & RO). specialize (P (proj2 CO) W ltac:(discriminate)).
  specialize (P ltac:(apply A0; split; [lia|]; intros n [<-|[]]; reflexivity) (Forall_nil _) (fun _ => Forall_nil _)).
  destruct (flush_lost start timeout npackets delta u t cur [n0] []) as [w' recs'|recs'|recs'].
  - destruct P as (b' & Q1 & Q2 & Q3 & Q4 & Q5 & Q6 & Q7). exists b'. unfold winv. cbn [r_win r_recs r_cur].
    split; [lia|]. repeat (split; [assumption|]). split.
    + intros (U & _). split; auto.
    + exists er, sy. reflexivity.
  - cbn [r_win r_recs]. tauto.
  - destruct P as ((b' & w' & Q1) & Q2 & _). eauto.
Qed.

Lemma loop_snoc : forall es e st, r_loop st (es ++ [e]) =
  match r_loop st es with RGo st' => r_pass D H mode aeskey hmackey start timeout npackets delta fudge st' e | o => o end.
Proof.
  induction es as [|x es IH]; intros e st; cbn [app Receiver_Model.r_loop].
  - destruct (r_pass _ _ _ _ _ _ _ _ _ _ st e); reflexivity.
  - destruct (r_pass _ _ _ _ _ _ _ _ _ _ st x); auto.
Qed.
Lemma run_snoc : forall cl u es e, run cl u (es ++ [e]) =
  match run cl u es with RGo st' => r_pass D H mode aeskey hmackey start timeout npackets delta fudge st' e | o => o end.
Proof. intros. unfold run_receiver. destruct (r_start _ _ _ _ cl u); auto. apply loop_snoc. Qed.

Definition run_post (cl : option (tspec * Z * Z)) (u : option nat) (es : list renv) (o : rstep) : Prop :=
  match o with
  | RGo st => exists b, winv b cl u es st
  | ROver st => exists b, acct b (r_win st) (r_recs st) /\ Forall (rok es) (r_recs st) /\ (r_win st = [] -> b = npackets)
  | RErr recs => exists b w, acct b w recs /\ Forall (rok es) recs
  end.

Lemma rok_incl : forall es e recs, Forall (rok es) recs -> Forall (rok (es ++ [e])) recs.
Proof. intros. eapply Forall_impl; [intros r; apply rok_mono|]; auto. Qed.

Lemma run_ok : forall cl u es, reading_ok cl -> Forall env_ok es -> run_post cl u es (run cl u es).
Proof.
  intros cl u es RO. induction es as [|e es IH] using rev_ind; intros EO.
  - unfold run_receiver. pose proof (start_ok cl u RO) as P.
    destruct (r_start _ _ _ _ cl u) as [st|st|recs]; cbn [Receiver_Model.r_loop run_post]; auto.
    destruct P as (P1 & P2 & P3). exists npackets. rewrite P1. auto.
  - rewrite Forall_app in EO. destruct EO as [EO1 EO2]. inversion EO2; subst. specialize (IH EO1).
    rewrite run_snoc. destruct (run cl u es) as [st|st|recs]; cbn [run_post] in *.
    + destruct IH as [b Inv]. pose proof (pass_ok b cl u es e st Inv ltac:(assumption)) as P.
      destruct (r_pass _ _ _ _ _ _ _ _ _ _ st e) as [st'|st'|recs']; cbn [pass_post] in P.
      * destruct P as (b' & _ & P & _). exists b'. exact P.
      * destruct P as (b' & _ & P1 & P2 & P3 & _). exists b'. auto.
      * exact P.
    + destruct IH as (b & I1 & I2 & I3). exists b. split; [auto|]. split; [now apply rok_incl|auto].
    + destruct IH as (b & w & I1 & I2). exists b, w. split; [auto|]. now apply rok_incl.
Qed.
End R.
