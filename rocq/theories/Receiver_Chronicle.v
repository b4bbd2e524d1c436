(** The records the receiver writes form a chronicle (Stats_Spec.v), as the statistics expect. *)
From Coq Require Import ZArith List Bool Lia ZifyBool ZifyNat Sorted.
From Verif Require Import Base BaseLemmas Arith_Model Arith_Proofs Time_Model Time_Proofs Wire_Model Wire_Spec Wire_Proofs
  Control_Model Packet_Model Sender_Spec Sender_Proofs Receiver_Model Receiver_Spec Receiver_Proofs Receiver_Run Receiver_Live Stats_Spec.
Import ListNotations.
Open Scope Z_scope.
Ltac Zify.zify_post_hook ::= Z.div_mod_to_equations.

Lemma nth_snoc : forall A (l : list A) x i y, nth_error (l ++ [x]) i = Some y -> nth_error l i = Some y \/ (i = length l /\ y = x).
Proof.
  intros A l x i y N. destruct (Nat.lt_ge_cases i (length l)) as [L|L]; [left; now rewrite nth_error_app1 in N|].
  rewrite nth_error_app2 in N by lia. destruct (i - length l)%nat as [|[|k]] eqn:E; cbn in N; try discriminate. right. split; [lia|congruence].
Qed.

Section R.
Variable D : list Z -> list Z -> list Z.
Variable H : list Z -> list Z -> list Z.
Variable mode : Z.
Variable aeskey hmackey : list Z.
Variable start timeout npackets : Z.
Variable delta : nat -> Z.
Variable fudge : tspec.
Hypothesis OK : rsession_ok start timeout npackets delta.
Hypothesis ERA : in_era start npackets delta.
Hypothesis Doct : forall b, octets b -> octets (D aeskey b).
Local Notation winv := (winv D H mode aeskey hmackey start timeout npackets delta).
Local Notation pass := (r_pass D H mode aeskey hmackey start timeout npackets delta fudge).
Local Notation run := (run_receiver D H mode aeskey hmackey start timeout npackets delta fudge).
Local Notation packet := (r_packet D H mode aeskey hmackey start timeout npackets delta).

(** record [r] may be followed by one of packet [q] *)
Definition lag (clocks : list (option (tspec * Z * Z))) (r : datarec) (q : Z) : Prop :=
  if is_lost r then r_seq r <= q
  else exists cur er sy, In (Some (cur, er, sy)) clocks /\ owptime (r_recv r) = sv cur /\ ns cur <= rdue start delta q + ns_of timeout.
Definition pairs (clocks : list (option (tspec * Z * Z))) (recs : list datarec) : Prop :=
  forall i j r s, (i <= j)%nat -> nth_error recs i = Some r -> nth_error recs j = Some s -> lag clocks r (r_seq s).
Definition chron (clocks : list (option (tspec * Z * Z))) (b : Z) (recs : list datarec) : Prop :=
  pairs clocks recs /\ (forall r q, In r recs -> b <= q < npackets -> lag clocks r q).

Lemma lag_mono : forall c c' r q, incl c c' -> lag c r q -> lag c' r q.
Proof.
  intros c c' r q I L. unfold lag in *. destruct (is_lost r); [exact L|]. destruct L as (cur & er & sy & A & B). exists cur, er, sy. split; [apply I; exact A|exact B].
Qed.
Lemma chron_mono : forall c c' b recs, incl c c' -> chron c b recs -> chron c' b recs.
Proof.
  intros c c' b recs I (A & B). split; [intros i j r s L N1 N2; eapply lag_mono; eauto|intros r q Ir Q; eapply lag_mono; eauto].
Qed.
Lemma chron_later : forall c b b' recs, b <= b' -> chron c b recs -> chron c b' recs.
Proof. intros c b b' recs L (A & B). split; [exact A|]. intros r q I Q. apply B; [exact I|lia]. Qed.
Lemma chron_snoc : forall c b b' recs r, chron c b recs -> b <= r_seq r < npackets -> b <= b' -> lag c r (r_seq r) -> (forall q, b' <= q < npackets -> lag c r q) ->
  chron c b' (recs ++ [r]).
Proof.
  intros c b b' recs r (A & B) R L SELF F. split.
  - intros i j x y IJ N1 N2. destruct (nth_snoc _ _ _ _ _ N1) as [M1|(M1 & ->)], (nth_snoc _ _ _ _ _ N2) as [M2|(M2 & ->)].
    + eapply A; eauto.
    + apply B; [eapply nth_error_In; eauto|lia].
    + assert (j < length recs)%nat by (apply nth_error_Some; congruence). lia.
    + exact SELF.
  - intros x q I Q. apply in_app_iff in I. destruct I as [I|[<-|[]]]; [apply B; [exact I|lia]|auto].
Qed.

Lemma flush_chron : forall c er fuel u j cur w recs b, win_ok start npackets delta b w -> w <> [] -> 0 <= b -> chron c b recs ->
  match flush_loop start timeout npackets delta fuel j u er cur w recs with
  | FGo w' recs' => chron c (headseq w') recs'
  | FOver recs' => pairs c recs'
  | FErr recs' => pairs c recs'
  end.
Proof.
  intros c er. induction fuel as [|fuel IH]; intros u j cur w recs b W N B0 C; [apply C|].
  destruct w as [|n rest]; [congruence|]. cbn [flush_loop]. pose proof W as (Es & NK & W'). set (cur' := if usr2_seen u j then _ else cur).
  destruct (ts_lt (expect_of timeout n) cur') eqn:T; [|cbn [headseq]; rewrite Es; exact C].
  assert (Go: forall recs1, chron c (b + 1) recs1 ->
    match match rest with
      | [] => if n_seq n + 1 <? npackets then flush_loop start timeout npackets delta fuel (S j) u er cur' [next_node start delta n] recs1 else FOver recs1
      | _ :: _ => flush_loop start timeout npackets delta fuel (S j) u er cur' rest recs1
      end with FGo w' recs' => chron c (headseq w') recs' | FOver recs' => pairs c recs' | FErr recs' => pairs c recs' end).
  { intros recs1 C1. destruct rest as [|m rest'].
    - destruct (Z.ltb_spec (n_seq n + 1) npackets) as [lt|ge]; [|apply C1].
      destruct (next_ok start npackets delta n NK lt) as [X1 X2]. apply (IH u (S j) cur' _ recs1 (b + 1)); auto; try discriminate; try lia.
      cbn [win_ok]. repeat split; auto; try lia; apply X1.
    - apply (IH u (S j) cur' _ recs1 (b + 1)); auto; try discriminate; lia. }
  destruct (n_hit n) eqn:Hh.
  - apply Go. eapply chron_later; [|exact C]. lia.
  - destruct (write_rec recs (lost_rec start n er)) as [recs1|] eqn:Wr; [|apply C].
    apply write_some in Wr. subst recs1. apply Go. destruct NK as (NK1 & _).
    apply chron_snoc with (b := b); auto; cbn [lost_rec r_seq]; try lia; unfold lag; change (is_lost (lost_rec start n er)) with true; cbn [lost_rec r_seq]; intros; lia.
Qed.

Lemma packet_chron : forall c b st pay ttl cur er sy, reading_ok (Some (cur, er, sy)) -> In (Some (cur, er, sy)) c ->
  win_ok start npackets delta b (r_win st) -> r_win st <> [] -> 0 <= b -> chron c b (r_recs st) ->
  owptime (r_stamp st) = sv cur -> (exists n r, r_win st = n :: r /\ ts_lt (expect_of timeout n) cur = false) ->
  match packet st pay ttl with
  | RGo st' => headseq (r_win st') = b /\ chron c b (r_recs st')
  | ROver st' => pairs c (r_recs st')
  | RErr recs => pairs c recs
  end.
Proof.
  intros c b st pay ttl cur er sy RO Ic W N B0 C Est (n1 & r1 & S2 & S3).
  assert (HS: headseq (r_win st) = b). { destruct (r_win st); [congruence|]. apply W. }
  assert (PH: forall st', packet st pay ttl = RGo st' -> headseq (r_win st') = b).
  { intros st' P. rewrite (packet_head _ _ _ _ _ _ _ _ _ _ _ _ _ P). exact HS. }
  destruct (packet st pay ttl) as [st'|st'|recs] eqn:P.
  2,3: unfold r_packet in P; destruct (parse_packet _ _ _ _ _ pay) as [|seq send valid]; try discriminate;
    destruct (npackets <=? seq); [try discriminate; injection P as <-; apply C|];
    destruct (r_win st) as [|n0 w0]; [congruence|]; destruct (seq <? n_seq n0); [discriminate|];
    destruct (get_node _ _ _ _) as [[w n]|]; [|try discriminate; injection P as <-; apply C]; cbn [r_recs r_stamp] in P;
    destruct (negb valid); [try discriminate; injection P as <-; apply C|]; destruct (timeout <? _); [discriminate|]; destruct (timeout <? _); [discriminate|];
    destruct (write_rec _ _); [discriminate|]; try discriminate; injection P as <-; apply C.
  split; [auto|]. specialize (PH st' eq_refl). revert P. unfold r_packet. destruct (parse_packet _ _ _ _ _ pay) as [|seq send valid]; [intros [= <-]; exact C|].
  destruct (Z.leb_spec npackets seq) as [|Hs]; [discriminate|].
  destruct (r_win st) as [|n0 w0] eqn:Ew; [congruence|]. pose proof W as (Es0 & NK0 & _). rewrite Es0.
  destruct (Z.ltb_spec seq b) as [|Hb]; [intros [= <-]; exact C|].
  destruct (get_node _ _ _ _) as [[w n]|]; [|discriminate]. cbn [r_recs r_stamp r_lasterr r_cur].
  destruct (negb valid); [discriminate|]. destruct (timeout <? _); [intros [= <-]; exact C|]. destruct (timeout <? _); [intros [= <-]; exact C|].
  destruct (write_rec _ _) as [recs|] eqn:Wr; [|discriminate]. apply write_some in Wr. intros [= <-]. subst recs. cbn [r_recs].
  destruct (reading_stamp D H aeskey hmackey Doct (r_stamp st) 0 cur er sy RO) as (_ & NZ & U64). destruct RO as ((_ & Nc) & _).
  assert (LG: forall q, b <= q < npackets -> lag c (mkRec seq send (r_stamp st) ttl) q).
  { intros q Q. unfold lag. assert (NL: is_lost (mkRec seq send (r_stamp st) ttl) = false) by (unfold is_lost; cbn [r_recv]; rewrite Est; now apply Z.eqb_neq).
    rewrite NL. exists cur, er, sy. split; [exact Ic|]. cbn [r_recv]. split; [exact Est|].
    injection S2 as <- <-. destruct (expect_ns start timeout npackets delta OK n0 NK0) as [E1 E2]. rewrite ts_lt_ns in S3 by auto.
    pose proof (rdue_mono start timeout npackets delta OK (n_seq n0) q ERA ltac:(lia) ltac:(lia)). lia. }
  apply chron_snoc with (b := b); auto; cbn [r_seq]; try lia.
Qed.

Definition run_chron (cl : option (tspec * Z * Z)) (es : list renv) (o : rstep) : Prop :=
  match o with
  | RGo st => chron (cl :: map re_clock es) (headseq (r_win st)) (r_recs st)
  | ROver st => pairs (cl :: map re_clock es) (r_recs st)
  | RErr recs => pairs (cl :: map re_clock es) recs
  end.
Lemma run_chron_ok : forall cl es, reading_ok cl -> Forall env_ok es -> Forall (fun e => re_usr2 e <> None -> re_chk4 e <> CNone) es ->
  run_chron cl es (run cl None es).
Proof.
  intros cl es. induction es as [|e es IH] using rev_ind; intros RO EO CO.
  - unfold run_receiver, r_start. destruct (Z.leb_spec npackets 0); [intros i j r s _ X; destruct i; discriminate|]. unfold r_clock.
    assert (P0: forall c, pairs c []) by (intros c i j r s _ X; destruct i; discriminate).
    destruct cl as [[[cur er] sy]|]; [|cbn [r_recs]; apply P0]. unfold checked. cbn [r_win r_recs r_stamp r_lasterr].
    set (n0 := mkNode 0 _ _ false). set (t := stamp _ _ cur er sy).
    destruct OK as (_ & _ & _ & Hd).
    assert (NK: node_ok start npackets delta n0).
    { unfold n0, node_ok. cbn [n_seq n_rel n_abs]. split; [lia|]. split; [|reflexivity]. cbn [Z.to_nat total].
      symmetry. apply Z.mod_small. apply Hd. }
    assert (W: win_ok start npackets delta 0 [n0]) by (cbn [win_ok]; repeat split; auto; apply NK).
    assert (C0: chron [Some (cur, er, sy)] 0 []) by (split; [apply P0|intros r q []]).
    pose proof (flush_chron [Some (cur, er, sy)] t (S (Z.to_nat (npackets - n_seq n0))) None 0 cur [n0] [] 0 W ltac:(discriminate) ltac:(lia) C0) as P.
    unfold flush_lost. destruct (flush_loop _ _ _ _ _ _ _ _ _ _ _) as [w' recs'|recs'|recs']; exact P.
  - rewrite Forall_app in EO. destruct EO as [EO1 EO2]. inversion EO2 as [|? ? EOe _]; subst.
    rewrite Forall_app in CO. destruct CO as [CO1 CO2]. inversion CO2 as [|? ? COe _]; subst.
    rewrite run_snoc. pose proof (run_ok D H mode aeskey hmackey start timeout npackets delta fudge OK Doct cl None es RO EO1) as RP.
    pose proof (run_go_unseen D H mode aeskey hmackey start timeout npackets delta fudge cl es) as US.
    specialize (IH RO EO1 CO1). set (c' := cl :: map re_clock (es ++ [e])).
    assert (IC: incl (cl :: map re_clock es) c'). { unfold c'. rewrite map_app. intros x [<-|I]; [now left|right; apply in_app_iff; now left]. }
    assert (PM: forall recs, pairs (cl :: map re_clock es) recs -> pairs c' recs).
    { intros recs P i j r s L N1 N2. eapply lag_mono; eauto. }
    destruct (run cl None es) as [st|st|recs] eqn:R0; cbn [run_post run_chron] in *; [|now apply PM|now apply PM].
    destruct RP as [b Inv]. specialize (US st eq_refl CO1). pose proof Inv as (B0 & W & N & A & F & S & L).
    assert (Hb: headseq (r_win st) = b). { destruct (r_win st); [congruence|]. cbn [headseq]. apply W. }
    rewrite Hb in IH. apply (chron_mono _ c' _ _ IC) in IH. fold c'.
    assert (G: run_chron cl (es ++ [e]) (pass st e)); [|exact G].
    assert (ErrPost: run_chron cl (es ++ [e]) (RErr (r_recs st))) by (cbn [run_chron]; apply IH).
    assert (OverPost: run_chron cl (es ++ [e]) (ROver st)) by (cbn [run_chron]; apply IH).
    unfold r_pass. destruct (fst (wake timeout fudge st) <? 0); [exact ErrPost|].
    unfold checked at 1. destruct (re_chk1 e) eqn:C1; [|exact ErrPost|exact OverPost].
    assert (G: run_chron cl (es ++ [e]) (checked (re_chk2 e) st
      (r_clock start timeout npackets delta st (re_clock e) (re_chk3 e) (re_usr2 e)
        (fun st0 => checked (re_chk4 e) st0 match re_rx e with
           | RxData true pay ttl => packet st0 pay ttl
           | _ => RGo st0 end)))).
    2:{ destruct (re_rx e) as [|[|]|]; auto. }
    unfold checked at 1. destruct (re_chk2 e) eqn:C2; [|exact ErrPost|exact OverPost].
    unfold r_clock. destruct (re_clock e) as [[[cur er] sy]|] eqn:Ec; [|exact ErrPost].
    unfold checked at 1. destruct (re_chk3 e) eqn:C3; [|exact ErrPost|exact OverPost].
    clear OverPost ErrPost. cbn zeta.
    assert (RO': reading_ok (Some (cur, er, sy))) by (rewrite <- Ec; apply EOe).
    assert (Nc: norm cur) by (destruct RO' as ((_ & X) & _); exact X).
    assert (I: In (Some (cur, er, sy)) (cl :: map re_clock (es ++ [e]))).
    { right. rewrite map_app, in_app_iff. right. cbn [map]. rewrite Ec. left; reflexivity. }
    set (t := stamp (r_stamp st) (r_lasterr st) cur er sy).
    destruct (reading_stamp D H aeskey hmackey Doct (r_stamp st) (r_lasterr st) cur er sy RO') as (Ts & _ & _). fold t in Ts.
    assert (F': Forall (rok D H mode aeskey hmackey start timeout npackets delta (es ++ [e])) (r_recs st)) by (eapply Forall_impl; [intros r; apply rok_mono|exact F]).
    pose proof (flush_inv D H mode aeskey hmackey start timeout npackets delta OK Doct False cl (es ++ [e]) (re_usr2 e) b (r_win st) (r_recs st) t cur er sy
      ltac:(tauto) I Nc W N A F' ltac:(tauto)) as P.
    assert (FC: match flush_lost start timeout npackets delta (re_usr2 e) t cur (r_win st) (r_recs st) with
      | FGo w' recs' => chron c' (headseq w') recs' | FOver recs' => pairs c' recs' | FErr recs' => pairs c' recs' end).
    { unfold flush_lost. destruct (r_win st) as [|m w]; [congruence|]. apply (flush_chron c' t _ _ _ cur (m :: w) (r_recs st) b); auto. }
    destruct (flush_lost start timeout npackets delta (re_usr2 e) t cur (r_win st) (r_recs st)) as [w' recs'|recs'|recs'] eqn:Fl; [|exact FC|exact FC].
    destruct P as (b' & Q1 & Q2 & Q3 & Q4 & Q5 & Q6 & Q7). assert (Hb': headseq w' = b'). { destruct w'; [congruence|]. cbn [headseq]. apply Q2. }
    unfold checked. destruct (re_chk4 e) eqn:C4; [|apply FC|apply FC].
    assert (UN: re_usr2 e = None). { destruct (re_usr2 e); [destruct COe; [discriminate|reflexivity]|reflexivity]. }
    assert (GO: run_chron cl (es ++ [e]) (RGo (mkRS w' recs' t er cur))) by exact FC.
    destruct (re_rx e) as [|?|peer pay ttl] eqn:Erx; try exact GO. destruct peer; [|exact GO].
    pose proof (packet_chron c' b' (mkRS w' recs' t er cur) pay ttl cur er sy RO' I Q2 Q3 ltac:(lia) ltac:(rewrite <- Hb'; exact FC) Ts (Q7 (or_introl UN))) as PK.
    destruct (packet _ pay ttl) as [st'|st'|recs2]; [|exact PK|exact PK]. cbn [run_chron]. destruct PK as (-> & PK). exact PK.
Qed.

(** before 2036 and with a timeout of less than 70 years, this is what the statistics expect *)
Lemma lag_stamp : forall clocks r q, start + total delta (Z.to_nat (npackets - 1)) < 2^64 -> timeout <= 2208988800 * 2^32 ->
  (forall t er sy, In (Some (t, er, sy)) clocks -> clock_ok t /\ fst t + 2208988800 < 2^32) ->
  0 <= q < npackets -> is_lost r = false -> lag clocks r q -> (owptime (r_recv r) - timeout) mod 2^64 <= sched_stamp start delta q.
Proof.
  intros clocks r q E2 TO CK Q NL L. unfold lag in L. rewrite NL in L. destruct L as ([s n] & er & sy & I & -> & L).
  destruct (CK _ _ _ I) as ((C1 & C2) & C3). cbn [fst snd] in *. destruct ERA as (E1 & _). destruct OK as (S0 & T0 & _ & D0).
  assert (TM := total_mono start timeout npackets delta OK (Z.to_nat q) (Z.to_nat (npackets - 1)) ltac:(lia)).
  assert (TN := total_nonneg start timeout npackets delta OK (Z.to_nat q)).
  unfold sv. cbn [fst snd]. unfold sched_stamp. unfold rdue in L. set (T := total delta (Z.to_nat q)) in *. clearbody T.
  assert (WS: 0 <= start + T < 2^64) by lia.
  rewrite (Z.mod_small (start + T)) by exact WS. rewrite (Z.mod_small (start + T - 2208988800 * 2^32)) in L by lia.
  rewrite (Z.mod_small (s + 2208988800)) by lia. unfold ns, ns_of in L. cbn [fst snd] in L.
  assert (NB: 0 <= n * M32 / 1000000000 < M32) by (split; [apply Z.div_pos; lia|apply Z.div_lt_upper_bound; lia]).
  assert (X: ((s + 2208988800) * M32 + n * M32 / 1000000000 - timeout) mod 2^64 = (s + 2208988800) * M32 + n * M32 / 1000000000 - timeout) by (apply Z.mod_small; lia).
  rewrite X. clear X.
  pose proof (Z.mul_div_le ((start + T - 2208988800 * 2 ^ 32) * 10 ^ 9) (2^32) ltac:(lia)).
  pose proof (Z.mul_div_le (timeout * 10 ^ 9) (2^32) ltac:(lia)).
  pose proof (Z.mul_div_le (n * M32) 1000000000 ltac:(lia)). 
  set (a := (start + T - 2208988800 * 2 ^ 32) * 10 ^ 9 / 2 ^ 32) in *. set (b := timeout * 10 ^ 9 / 2 ^ 32) in *. set (c := n * M32 / 1000000000) in *.
  clearbody a b c. clear - L H0 H1 H2. change M32 with (2^32) in *. lia.
Qed.

Lemma run_chronicle : forall cl es, reading_ok cl -> Forall env_ok es -> Forall (fun e => re_usr2 e <> None -> re_chk4 e <> CNone) es ->
  start + total delta (Z.to_nat (npackets - 1)) < 2^64 -> timeout <= 2208988800 * 2^32 ->
  (forall t er sy, In (Some (t, er, sy)) (cl :: map re_clock es) -> clock_ok t /\ fst t + 2208988800 < 2^32) ->
  forall recs, recs = match run cl None es with RGo st => r_recs st | ROver st => r_recs st | RErr recs => recs end ->
  (exists b w, acct b w recs) -> Forall (fun r => 0 <= r_seq r < npackets) recs -> chronicle start timeout delta recs.
Proof.
  intros cl es RO EO CO NW TO CK recs E (b & w & A) RG. pose proof (run_chron_ok cl es RO EO CO) as P.
  assert (P': pairs (cl :: map re_clock es) recs) by (rewrite E; destruct (run cl None es); [apply P|exact P|exact P]). clear P.
  destruct A as (A1 & A2 & A3 & A4 & _). split.
  - intros q. destruct (Z.ltb_spec q 0).
    + assert (X: forall f, (forall r, In r recs -> f r = true -> r_seq r = q) -> length (filter f recs) = 0%nat).
      { intros f Hf. destruct (filter f recs) as [|x l] eqn:Ef; [reflexivity|]. assert (I: In x (filter f recs)) by (rewrite Ef; now left).
        apply filter_In in I. destruct I as (I1 & I2). specialize (Hf x I1 I2). rewrite Forall_forall in RG. specialize (RG x I1). lia. }
      unfold lost_of, received_of. rewrite !X by (intros r _ Hr; lia). lia.
    + destruct (Z.ltb_spec q b); [destruct (A1 q ltac:(lia)) as [(X & Y)|(X & Y)]; lia|]. rewrite (A2 q ltac:(lia)). lia.
  - intros i j r s L N1 N2. pose proof (P' i j r s L N1 N2) as LG.
    assert (SR: 0 <= r_seq s < npackets). { rewrite Forall_forall in RG. apply RG. eapply nth_error_In; eauto. }
    destruct (is_lost r) eqn:NL; [unfold lag in LG; rewrite NL in LG; exact LG|]. eapply lag_stamp; eauto.
Qed.
End R.
