(** Property theorems C33-C35 and C62: the sender of test packets.
    An execution of run_sender is determined by the session parameters and by what the
    environment does: signals, clock readings and results of system calls ([es] while sending,
    [tes] while waiting at the end, [int] whether SIGINT/SIGTERM had arrived at the end). *)
From Coq Require Import ZArith List Bool Lia ZifyBool ZifyNat.
From Verif Require Import Base BaseLemmas Arith_Model Time_Model Time_Proofs Wire_Model Wire_Spec Control_Model Control_Spec Toy
  Packet_Model Packet_Proofs Sender_Model Sender_Spec Sender_Proofs.
Import ListNotations.
Open Scope Z_scope.

(** admissible sessions: 64-bit loss timeout and delays, 32-bit packet count, valid start time *)
Definition session_ok (start : tspec) (timeout npackets : Z) (delta : nat -> Z) : Prop :=
  clock_ok start /\ 0 <= timeout < 2^64 /\ 0 <= npackets < 2^32 /\ forall n, 0 <= delta n < 2^64.

Lemma session_norm : forall s t n d, session_ok s t n d -> norm s.
Proof. intros s t n d ((_ & A) & _). exact A. Qed.

Lemma acc_ranges : forall st, accounted (s_i st) (s_skips st) (s_log st) ->
  let f := skip_file st in
  rep_next f = s_i st /\ rep_count f = Z.of_nat (length (s_skips st)) /\
  length f = (8 + 8 * length (s_skips st))%nat /\
  (forall k, Z.of_nat k < rep_count f -> exists s, nth_error (s_skips st) k = Some s /\
     rep_begin f k = sk_begin s /\ rep_end f k = sk_end s) /\
  (forall k s, nth_error (s_skips st) k = Some s -> Z.of_nat k < rep_count f).
Proof.
  intros st (A & B & _) f.
  assert (L: Z.of_nat (length (s_skips st)) < M32).
  { destruct (s_skips st) as [|x l] eqn:S; [cbn; lia|]. pose proof (chain_length _ _ _ B ltac:(discriminate)). lia. }
  destruct (report_fields st _ A eq_refl L) as (F1 & F2 & F3 & F4). fold f in F1, F2, F3, F4.
  split; [exact F1|]. split; [exact F2|]. split; [exact F3|]. split.
  - intros k Hk. rewrite F2 in Hk. destruct (nth_error (s_skips st) k) as [s|] eqn:En.
    + exists s. split; [auto|]. pose proof (chain_nth _ _ _ _ _ B En) as C. apply F4; auto; red; lia.
    + apply nth_error_None in En. lia.
  - intros k s En. rewrite F2. assert (k < length (s_skips st))%nat by (apply nth_error_Some; congruence). lia.
Qed.

Lemma covered_in_range : forall st, accounted (s_i st) (s_skips st) (s_log st) ->
  forall q, covered (s_skips st) q <-> exists k, in_range (skip_file st) k q.
Proof.
  intros st A q. destruct (acc_ranges st A) as (_ & _ & _ & R1 & R2). split.
  - intros (s & Hin & Hq). apply In_nth_error in Hin. destruct Hin as [k Hk]. exists k.
    pose proof (R2 _ _ Hk) as Lk. destruct (R1 _ Lk) as (s' & E & E1 & E2). rewrite Hk in E. inversion E; subst s'.
    split; [auto|]. lia.
  - intros (k & Lk & Hq). destruct (R1 _ Lk) as (s & E & E1 & E2). exists s.
    split; [eapply nth_error_In; eauto|lia].
Qed.

Lemma range_unique : forall st, accounted (s_i st) (s_skips st) (s_log st) ->
  forall q j k, in_range (skip_file st) j q -> in_range (skip_file st) k q -> j = k.
Proof.
  intros st A q j k (Lj & Hj) (Lk & Hk). destruct (acc_ranges st A) as (_ & _ & _ & R1 & _).
  destruct (R1 _ Lj) as (a & Ea & Ea1 & Ea2). destruct (R1 _ Lk) as (b & Eb & Eb1 & Eb2).
  destruct A as (_ & C & _). destruct (Nat.lt_trichotomy j k) as [L|[L|L]]; auto; exfalso.
  - pose proof (chain_order _ _ _ _ _ _ _ C L Ea Eb). lia.
  - pose proof (chain_order _ _ _ _ _ _ _ C L Eb Ea). lia.
Qed.

(** C33.  Every sequence number below the reported next one was handed to the network exactly once
    (successfully, or with an error that the sender ignores) and is in no reported range, or was
    never handed over and is in exactly one reported range; from the reported next sequence number on,
    nothing was sent.  What is missing for the full claim: an attempt whose error is ignored is not
    a transmission, see C33_refuted. *)
Theorem C33_accounting_partial : forall E H mode k hk start timeout npackets delta pad ed es tes int st file,
  session_ok start timeout npackets delta ->
  run_sender E H mode k hk start timeout npackets delta pad ed es tes int = SOReport st file ->
  (forall q, 0 <= q < rep_next file ->
     (attempts q (s_log st) = 1%nat /\ forall j, ~ in_range file j q) \/
     (attempts q (s_log st) = 0%nat /\ exists j, in_range file j q /\ forall j', in_range file j' q -> j' = j)) /\
  (forall q, rep_next file <= q -> attempts q (s_log st) = 0%nat) /\
  (forall q j, in_range file j q -> 0 <= q < rep_next file) /\
  0 <= rep_next file <= Z.max 1 npackets.
Proof.
  intros E H mode k hk start timeout npackets delta pad ed es tes int st file S R.
  pose proof S as (S1 & S2 & S3 & S4).
  destruct (run_inv E H mode k hk start timeout npackets delta pad (session_norm _ _ _ _ S) S2 S3 _ _ _ _ _ _ R) as (A & F & I & _).
  subst file. destruct (acc_ranges st A) as (F1 & F2 & F3 & R1 & R2). pose proof (covered_in_range st A) as CR.
  pose proof A as (A1 & A2 & A3 & A4). rewrite F1. repeat split; try lia.
  - intros q Hq. destruct (A3 q Hq) as [[C1 C2]|[C1 C2]]; [left|right]; split; auto.
    + intros j Hj. apply C2. apply CR. eauto.
    + apply CR in C2. destruct C2 as [j Hj]. exists j. split; auto. intros j' Hj'. eapply range_unique; eauto.
  - exact A4.
  - pose proof (chain_covered_lt _ _ _ _ A2 (proj2 (CR q) (ex_intro _ j H0))). lia.
  - pose proof (chain_covered_lt _ _ _ _ A2 (proj2 (CR q) (ex_intro _ j H0))). lia.
Qed.
Print Assumptions C33_accounting_partial.

Lemma attempts_transmissions : forall q log, Forall (fun e => match e with EvSend _ _ _ _ SendOther => False | _ => True end) log ->
  attempts q log = transmissions q log.
Proof.
  intros q log F. unfold attempts, transmissions. induction F as [|e log He F IH]; [reflexivity|].
  cbn [filter]. replace (is_sent q true e) with (is_sent q false e); [destruct (is_sent q false e); cbn [length]; congruence|].
  destruct e as [? ? ? ? []|]; try reflexivity. destruct He.
Qed.

(** The full claim holds in every execution in which no ignored error occurs. *)
Theorem C33_no_ignored_errors : forall E H mode k hk start timeout npackets delta pad ed es tes int st file,
  session_ok start timeout npackets delta ->
  run_sender E H mode k hk start timeout npackets delta pad ed es tes int = SOReport st file ->
  Forall (fun e => match e with EvSend _ _ _ _ SendOther => False | _ => True end) (s_log st) ->
  (forall q, 0 <= q < rep_next file ->
     (transmissions q (s_log st) = 1%nat /\ forall j, ~ in_range file j q) \/
     (transmissions q (s_log st) = 0%nat /\ exists j, in_range file j q /\ forall j', in_range file j' q -> j' = j)) /\
  (forall q, rep_next file <= q -> transmissions q (s_log st) = 0%nat).
Proof.
  intros E H mode k hk start timeout npackets delta pad ed es tes int st file S R F.
  destruct (C33_accounting_partial _ _ _ _ _ _ _ _ _ _ _ _ _ _ _ _ S R) as (A & B & _).
  split; intros q Hq; rewrite <- (attempts_transmissions q _ F); auto.
Qed.
Print Assumptions C33_no_ignored_errors.

(** a sample session: three packets, 1 s apart, timeout 2 s, start at second 1000 *)
Definition at_sec (s : Z) : option (tspec * Z * Z) := Some ((s, 500), 1000, 1).
Definition go (s : Z) (r : sendres) : senv := mkSE false false (at_sec s) false false r true.
Definition sample_run (es : list senv) : soutcome :=
  run_sender toyE toyH MODE_ENCR (repeat 7 16) (repeat 9 16) (1000, 0) (2 * 2^32) 3 (fun _ => 2^32) (fun _ => [1;2;3])
    (0, 0) es [mkTE false false (at_sec 1100) true false] false.
Definition report_of (o : soutcome) : list Z := match o with SOReport _ f => f | _ => [] end.

Lemma sample_session : session_ok (1000, 0) (2 * 2^32) 3 (fun _ => 2^32).
Proof. unfold session_ok, clock_ok. cbn. repeat split; lia. Qed.

(** packet 0: one retry, then sent; packets 1 and 2 too late *)
Example C33_example : exists st, sample_run [go 1000 SendOK; go 1001 SendNoBufs; go 1001 SendOK; go 1090 SendOK; go 1090 SendOK] = SOReport st (report_of (sample_run [go 1000 SendOK; go 1001 SendNoBufs; go 1001 SendOK; go 1090 SendOK; go 1090 SendOK])) /\
  report_of (sample_run [go 1000 SendOK; go 1001 SendNoBufs; go 1001 SendOK; go 1090 SendOK; go 1090 SendOK])
  = [0;0;0;3; 0;0;0;1; 0;0;0;1; 0;0;0;2].
Proof. eexists. split; vm_compute; reflexivity. Qed.

(** Full C33 is false: an error such as "network unreachable" leaves a number neither transmitted nor
    reported as skipped. *)
Theorem C33_refuted : exists E H mode k hk start timeout npackets delta pad ed es tes int st file q,
  session_ok start timeout npackets delta /\
  run_sender E H mode k hk start timeout npackets delta pad ed es tes int = SOReport st file /\
  0 <= q < rep_next file /\ transmissions q (s_log st) = 0%nat /\ forall j, ~ in_range file j q.
Proof.
  exists toyE, toyH, MODE_ENCR, (repeat 7 16), (repeat 9 16), (1000, 0), (2 * 2^32), 3, (fun _ => 2^32), (fun _ => [1;2;3]),
    (0, 0), [go 1001 SendOther; go 1002 SendOK; go 1003 SendOK], [mkTE false false (at_sec 1100) true false], false.
  destruct (run_sender toyE toyH MODE_ENCR (repeat 7 16) (repeat 9 16) (1000, 0) (2 * 2^32) 3 (fun _ => 2^32) (fun _ => [1;2;3])
    (0, 0) [go 1001 SendOther; go 1002 SendOK; go 1003 SendOK] [mkTE false false (at_sec 1100) true false] false)
    as [|?|st file] eqn:R; [vm_compute in R; discriminate..|].
  assert (V: file = [0;0;0;3; 0;0;0;0] /\ transmissions 0 (s_log st) = 0%nat).
  { vm_compute in R. inversion R; subst. split; reflexivity. }
  destruct V as [-> V]. exists st, [0;0;0;3; 0;0;0;0], 0.
  split; [apply sample_session|]. split; [exact eq_refl || exact R || reflexivity|]. split; [change (rep_next [0;0;0;3; 0;0;0;0]) with 3; lia|].
  split; [exact V|]. intros j [J _]. change (rep_count [0;0;0;3; 0;0;0;0]) with 0 in J. lia.
Qed.
Print Assumptions C33_refuted.

(** C34: the ranges in the report are non-empty, increasing, pairwise disjoint and never adjacent, all
    below the reported next sequence number; their announced number is the number in the file. *)
Theorem C34_skip_ranges : forall E H mode k hk start timeout npackets delta pad ed es tes int st file,
  session_ok start timeout npackets delta ->
  run_sender E H mode k hk start timeout npackets delta pad ed es tes int = SOReport st file ->
  Z.of_nat (length file) = 8 + 8 * rep_count file /\
  (forall j, Z.of_nat j < rep_count file -> 0 <= rep_begin file j <= rep_end file j /\ rep_end file j < rep_next file) /\
  (forall i j, (i < j)%nat -> Z.of_nat j < rep_count file -> rep_end file i + 1 < rep_begin file j).
Proof.
  intros E H mode k hk start timeout npackets delta pad ed es tes int st file S R.
  pose proof S as (S1 & S2 & S3 & S4).
  destruct (run_inv E H mode k hk start timeout npackets delta pad (session_norm _ _ _ _ S) S2 S3 _ _ _ _ _ _ R) as (A & F & I & _).
  subst file. destruct (acc_ranges st A) as (F1 & F2 & F3 & R1 & R2). destruct A as (A1 & A2 & _).
  split; [|split].
  - rewrite F3, F2. lia.
  - intros j Hj. destruct (R1 j Hj) as (s & Es & -> & ->). rewrite F1. pose proof (chain_nth _ _ _ _ _ A2 Es). lia.
  - intros i j Hij Hj. destruct (R1 j Hj) as (s & Es & -> & _). destruct (R1 i ltac:(lia)) as (s' & Es' & _ & ->).
    exact (chain_order _ _ _ _ _ _ _ A2 Hij Es' Es).
Qed.
Print Assumptions C34_skip_ranges.

(** C35: each transmission attempt happens strictly after the packet's scheduled time and at most the
    loss timeout after it, both measured on the clock reading that is put into the packet; and a packet
    is skipped only when the clock is more than the timeout past its scheduled time.  In every
    execution, finished or not. *)
Theorem C35_window : forall E H mode k hk start timeout npackets delta pad ed es tes int,
  session_ok start timeout npackets delta ->
  Forall (fun e => match e with
    | EvSend q c s p r => clock_ok c -> due start delta q < ns c <= due start delta q + ns_of timeout
    | EvSkip q c s => clock_ok c -> due start delta q + ns_of timeout < ns c
    end) (the_log (run_sender E H mode k hk start timeout npackets delta pad ed es tes int)).
Proof.
  intros E H mode k hk start timeout npackets delta pad ed es tes int S.
  pose proof S as (S1 & S2 & S3 & S4).
  destruct (run_events E H mode k hk start timeout npackets delta pad (session_norm _ _ _ _ S) S2 S3 ed es tes int) as [T _].
  eapply Forall_impl; [|exact T]. intros [q c s p r|q c s] He Hc; cbn [ev_timely] in He; specialize (He Hc); lia.
Qed.
Print Assumptions C35_window.

Example C35_example : (* packet 0 is due at second 1001; at 1003 it is sent, 501 ns later it is too late *)
  due (1000, 0) (fun _ => 2^32) 0 = 1001 * 10^9 /\
  the_log (sample_run [mkSE false false (Some ((1003, 0), 1000, 1)) false false SendOK true]) <> [] /\
  (match the_log (sample_run [go 1003 SendOK]) with [EvSkip 0 c _] => c = (1003, 500) | _ => False end).
Proof. split; [vm_compute; reflexivity|]. split; [vm_compute; discriminate|vm_compute; reflexivity]. Qed.

(** C62: what the sender puts into a packet is what the receiver takes out of it, in every mode:
    the sequence number and, whenever the time stamp has a valid error estimate, the whole time stamp. *)
Theorem C62_packet_roundtrip : forall E D H mode k hk pad seq ts pkt,
  block_cipher E D -> digest20 H -> 0 <= seq < 2^32 -> 0 <= owptime ts < 2^64 ->
  build_packet E H mode k hk pad seq ts = Some pkt ->
  exists t, parse_packet D H mode k hk pkt = PPacket seq t true /\ owptime t = owptime ts /\ (ts_ok ts -> t = ts).
Proof. intros E D H mode k hk pad seq ts pkt BC DG. exact (packet_roundtrip E D H BC DG mode k hk pad seq ts pkt). Qed.
Print Assumptions C62_packet_roundtrip.

(** the packet has exactly the length that both sides compute from the session parameters *)
Theorem C62_packet_length : forall E D H mode k hk pad seq ts pkt, block_cipher E D -> digest20 H ->
  build_packet E H mode k hk pad seq ts = Some pkt ->
  Z.of_nat (length pkt) = (if mode =? MODE_OPEN then 14 else 48) + Z.of_nat (length pad) /\
  (Z.of_nat (length pad) < 2^32 - 48 -> payload_size mode (Z.of_nat (length pad)) = Z.of_nat (length pkt)).
Proof.
  intros E D H mode k hk pad seq ts pkt BC DG B. destruct (build_length E D H BC DG mode k hk pad seq ts pkt B) as [O L]. split; [exact L|].
  intros Lt. rewrite L. unfold payload_size, u32. destruct O as [-> |[-> | ->]]; cbn [Z.eqb Pos.eqb orb MODE_OPEN MODE_MIXED MODE_AUTH MODE_ENCR]; apply Z.mod_small; lia.
Qed.
Print Assumptions C62_packet_length.

(** RFC 4656 section 4.1.2: sequence number, time stamp, error estimate, padding *)
Theorem C62_open_layout : forall E H k hk pad seq ts pkt, 0 <= seq < 2^32 -> ts_ok ts ->
  build_packet E H MODE_OPEN k hk pad seq ts = Some pkt ->
  field pkt 0 4 = seq /\ spec_ts pkt 4 12 = ts /\ skipn 14 pkt = pad.
Proof. exact open_layout. Qed.
Print Assumptions C62_open_layout.

(** every packet that a session hands to the network: the receiver with the same keys takes its own
    sequence number out of it and the sender's clock reading at the time, to 2^-32 s *)
Theorem C62_session_packets : forall E D H mode k hk start timeout npackets delta pad ed es tes int,
  block_cipher E D -> digest20 H -> session_ok start timeout npackets delta ->
  Forall (fun e => match e with
    | EvSend q c s p r => clock_ok c -> 0 <= q < 2^32 -> exists t, parse_packet D H mode k hk p = PPacket q t true /\
        owptime t = (fst c + 2208988800) mod 2^32 * 2^32 + snd c * 2^32 / 10^9
    | EvSkip _ _ _ => True
    end) (the_log (run_sender E H mode k hk start timeout npackets delta pad ed es tes int)).
Proof.
  intros E D H mode k hk start timeout npackets delta pad ed es tes int BC DG S.
  pose proof S as (S1 & S2 & S3 & S4).
  destruct (run_events E H mode k hk start timeout npackets delta pad (session_norm _ _ _ _ S) S2 S3 ed es tes int) as [_ P].
  eapply Forall_impl; [|exact P]. intros [q c s p r|q c s] He; auto. cbn [ev_packet] in He.
  destruct He as (t & Ht & B). intros [K1 K2] Hq. destruct c as [cs cn]. cbn [fst snd] in *.
  rewrite epoch_value in Ht by lia.
  destruct (packet_roundtrip E D H BC DG mode k hk (pad q) q t p Hq) as (t' & P1 & P2 & _); auto.
  - red. rewrite Ht. change (2 ^ 32) with M32 in *. change (10^9) with 1000000000 in *.
    assert (0 <= cn * M32 / 1000000000 < M32) by (split; [apply Z.div_pos; lia|apply Z.div_lt_upper_bound; lia]).
    pose proof (Z.mod_pos_bound (cs + 2208988800) M32 ltac:(lia)). lia.
  - exists t'. split; [exact P1|]. rewrite P2, Ht. reflexivity.
Qed.
Print Assumptions C62_session_packets.

Example C62_example : (* encrypted mode *)
  match build_packet toyE toyH MODE_ENCR (repeat 7 16) (repeat 9 16) [1;2;3] 258 (mkTS 5000 1 7 9) with
  | Some p => length p = 51%nat /\ parse_packet toyE toyH MODE_ENCR (repeat 7 16) (repeat 9 16) p = PPacket 258 (mkTS 5000 1 7 9) true /\
              parse_packet toyE toyH MODE_ENCR (repeat 7 16) (repeat 9 16) (upd 3 77 p) = PBadHmac
  | None => False
  end.
Proof. vm_compute. repeat split. Qed.

(** C33, liveness: when the sender was never told to stop, its report covers all packets. *)
Theorem C33_complete : forall E H mode k hk start timeout npackets delta pad ed es tes int st file,
  session_ok start timeout npackets delta ->
  Forall (fun e => se_int e = false /\ se_usr2 e = false /\ se_int2 e = false /\ se_usr22 e = false) es ->
  run_sender E H mode k hk start timeout npackets delta pad ed es tes int = SOReport st file ->
  rep_next file = Z.max 1 npackets.
Proof.
  intros E H mode k hk start timeout npackets delta pad ed es tes int st file S Q R.
  pose proof S as (S1 & S2 & S3 & S4).
  pose proof (session_norm _ _ _ _ S) as SN.
  assert (NS: forall es st0, Forall (fun e => se_int e = false /\ se_usr2 e = false /\ se_int2 e = false /\ se_usr22 e = false) es ->
    forall st1, s_loop E H mode k hk start timeout npackets delta pad st0 es <> SStop st1).
  { clear. induction es as [|e es IH]; intros st0 F st1; cbn [s_loop]; [discriminate|].
    inversion F as [|? ? (A & B & C & D) F']; subst.
    destruct (s_pass _ _ _ _ _ _ _ _ _ _ st0 e) as [st'|st'|st'|] eqn:P; try discriminate; [auto|]. exfalso. clear IH F F'.
    unfold s_pass in P. rewrite A, B, C, D in P. cbn [orb] in P.
    assert (AD: forall x y, s_advance start npackets delta x <> SStop y) by (intros; unfold s_advance; destruct (_ <? _); discriminate).
    repeat match type of P with
    | context [match ?x with _ => _ end] => destruct x; try discriminate; try (apply AD in P; assumption)
    end; apply AD in P; exact P. }
  destruct (run_inv E H mode k hk start timeout npackets delta pad SN S2 S3 _ _ _ _ _ _ R) as (A & F & _ & _).
  subst file. rewrite (proj1 (acc_ranges st A)). clear A.
  unfold run_sender in R.
  pose proof (loop_post E H mode k hk start timeout npackets delta pad SN S2 S3 es _ (inv_init E H mode k hk start timeout npackets delta pad SN)) as P.
  destruct (s_loop _ _ _ _ _ _ _ _ _ _ _ es) as [st0|st0|st0|log] eqn:L; try discriminate.
  - destruct (s_tail _ tes) as [[|]|]; try discriminate. unfold s_finish in R. destruct int; try discriminate.
    inversion R; subst. cbn [post] in P. tauto.
  - exfalso. exact (NS es _ Q _ L).
Qed.
Print Assumptions C33_complete.
