(** Property theorems about the statistics of two-way sessions: C84 (numbers of packets, delays and
    TTLs) and C85 (memory).  Vocabulary: StatsTW_Spec.v. *)
From Coq Require Import ZArith List Bool Lia ZifyBool ZifyNat Arith.
From Verif Require Import Base BaseLemmas Arith_Model Time_Model Wire_Model Wire_Spec Control_Model File_Model File_Spec File_Proofs File_Updates
  Packet_Model Sender_Model Sender_Spec Receiver_Model Receiver_Spec Reflector_Model Twoway_Model Twoway_Spec Toy Control_Spec Reflector_Spec Props_Receiver Props_Twoway
  Stats_Model Stats_Spec Stats_Proofs Stats_Iter Stats_Parse StatsTW_Model StatsTW_Spec StatsTW_Proofs StatsTW_Inv StatsTW_Iter StatsTW_Parse.
Import ListNotations.
Open Scope Z_scope.

(** A call of OWPStatsParse with a new object: file, offsets of records and skip records in its header,
    limit, starting position, range of packet numbers *)
Record twcall := mkTWCall { w_odata : Z; w_oskip : Z; w_limit : Z; w_file : list Z; w_begin : Z; w_first : Z; w_last : Z }.

Section P.
Variable start timeout npackets : Z.
Variable delta : nat -> Z.
Variable bucket : timestamp -> timestamp -> Z.
Variable negative : timestamp -> timestamp -> bool.
Variable bucket_rt : twrec -> Z.

Definition tw_stats (c : twcall) : tparsed :=
  tparse start timeout npackets 50 delta bucket negative bucket_rt 131 (w_odata c) (w_oskip c) (w_limit c) (w_file c) (w_begin c) (w_first c) (w_last c).
(** 2^32-1 as the end of the range stands for the end of the session *)
Definition tw_upto (c : twcall) : Z := if w_last c =? 4294967295 then npackets else w_last c.
Definition twcall_ok (c : twcall) : Prop :=
  0 < w_odata c /\ octets (w_file c) /\ 0 <= w_first c <= tw_upto c /\ tw_upto c <= npackets /\ w_first c < 2^32 - 1.
(** number of records announced by the size of the file; a record has 50 octets *)
Definition tw_wanted (c : twcall) : Z := nrecs (rec_size := 50) (w_odata c) (w_oskip c) (w_limit c) (w_file c) (w_begin c).
Definition tw_looks_at (c : twcall) (recs : list twrec) : Prop :=
  readable (decode_twrec 131) (w_file c) (Z.to_nat (Z.max (w_begin c) (w_odata c))) 50 (Z.to_nat (tw_wanted c)) recs.
Definition tw_complete (c : twcall) (recs : list twrec) : Prop := length recs = Z.to_nat (tw_wanted c).
Definition tw_session_ok : Prop := 0 <= start < 2^64 /\ (forall n, 0 <= delta n) /\ 0 <= npackets < 2^32.
(** the records of the range *)
Definition tw_counting (c : twcall) (recs : list twrec) : list twrec := tw_range (w_first c) (tw_upto c) recs.

Lemma decode_rec_fields : forall b r, octets b -> decode_datarec 3 b = Some r -> 0 <= r_ttl r < 256 /\ 0 <= r_seq r < 2^32.
Proof.
  intros b r O. pose proof (byte_bound 24 b O) as B. pose proof (be_dec_bound (sub 0 4 b) (sub_octets _ _ _ O)) as Q. unfold decode_datarec. cbn [Z.eqb orb Pos.eqb].
  assert (L: (length (sub 0 4 b) <= 4)%nat) by (unfold sub; rewrite firstn_length; lia).
  assert (256 ^ Z.of_nat (length (sub 0 4 b)) <= 2^32). { change (2^32) with (256^4). apply Z.pow_le_mono_r; lia. }
  repeat match goal with |- context[decode_errest ?x ?y] => destruct (decode_errest x y) as [[? ?] [|]] end; try discriminate; intros [= <-]; cbn [r_ttl r_seq]; lia.
Qed.
Lemma tw_looks_fields : forall c recs, twcall_ok c -> tw_looks_at c recs -> Forall octet_fields recs.
Proof.
  intros c recs (_ & O & _) (_ & L & _). apply Forall_forall. intros r I. apply In_nth_error in I. destruct I as (i & I). destruct (L i r I) as (_ & X).
  unfold decode_twrec in X. rewrite Z.eqb_refl in X. unfold nth_record, octs_at in X. set (b := firstn 50 _) in X.
  assert (OB: octets b) by exact (sub_octets _ 50 _ O). clearbody b.
  destruct (decode_datarec 3 (sub 0 25 b)) as [x|] eqn:E1; [|discriminate]. destruct (decode_datarec 3 (sub 25 25 b)) as [y|] eqn:E2; [|discriminate]. injection X as <-.
  apply decode_rec_fields in E1; [|apply sub_octets; exact OB]. apply decode_rec_fields in E2; [|apply sub_octets; exact OB].
  unfold octet_fields, reply. cbn [tw_sent tw_refl]. tauto.
Qed.

Lemma tw_result : forall c recs, tw_session_ok -> twcall_ok c -> tw_looks_at c recs ->
  match tw_stats c with
  | TPCrash => False
  | TPFail => ~ tw_complete c recs \/ exists a r b, recs = a ++ r :: b /\ tmisfit (start := start) (timeout := timeout) (delta := delta) (w_first c) (tw_upto c) a r
  | TPOk g => tw_complete c recs /\ tsummary (start := start) (rec_size := 50) (delta := delta) (bucket := bucket) (negative := negative) (bucket_rt := bucket_rt)
                (w_first c) (tw_upto c) (Z.max (w_begin c) (w_odata c)) recs g
  end.
Proof.
  intros c recs (S0 & D & NP) OK L. pose proof (tw_looks_fields c recs OK L) as TT. destruct OK as (O & _ & F & N & B).
  pose proof (tparse_result (start := start) (timeout := timeout) (npackets := npackets) (rec_size := 50) (delta := delta) (bucket := bucket) (negative := negative) (bucket_rt := bucket_rt)
    (w_odata c) (w_oskip c) (w_limit c) (w_file c) (w_begin c) (w_first c) (w_last c) (tw_upto c) recs S0 D O ltac:(lia) NP F B N eq_refl L TT) as P.
  fold (tw_stats c) in P. fold (tw_wanted c) in P. destruct (tw_stats c); auto. destruct P as [P|P]; [left; unfold tw_complete; lia|now right].
Qed.

(** ** C84 *)

(** Whatever the file contains, the program does not crash, and if a summary is made at all, then of all
    the records from the starting position on, and these are its figures.  Of a packet answered several
    times, the delays and TTLs of the first answer count. *)
Theorem C84_any_file : tw_session_ok -> forall c recs, twcall_ok c -> tw_looks_at c recs ->
  tw_stats c <> TPCrash /\
  forall g, tw_stats c = TPOk g ->
  let R := tw_counting c recs in
  let A := replies R in
  tw_complete c recs /\
  h_sent g = packets A + Z.of_nat (length (unanswered R)) /\
  q_lost (h_pk g) = packets (unanswered R) /\
  q_dups0 (h_pk g) = reflections A - packets A /\
  q_dups1 (h_pk g) = Z.of_nat (length A) - reflections A /\
  (forall b, samples (h_rt g) b = tw_count (fun r => bucket_rt r =? b) (firsts [] A)) /\
  (forall b, samples (h_fwd g) b = tw_count (fun r => bucket (r_send (tw_sent r)) (r_recv (tw_sent r)) =? b) (firsts [] A)) /\
  (forall b, samples (h_bck g) b = tw_count (fun r => bucket (r_send (tw_refl r)) (r_recv (tw_refl r)) =? b) (firsts [] A)) /\
  (forall t, 0 <= t < 256 -> nth (Z.to_nat t) (h_ttl0 g) 0 = tw_count (fun r => r_ttl (tw_sent r) =? t) (firsts [] A)) /\
  (forall t, 0 <= t < 256 -> nth (Z.to_nat t) (h_ttl1 g) 0 = tw_count (fun r => r_ttl (tw_refl r) =? t) (firsts [] A)) /\
  (h_offset g = true <-> exists r, In r A /\ (negative (r_send (tw_sent r)) (r_recv (tw_sent r)) = true \/ negative (r_send (tw_refl r)) (r_recv (tw_refl r)) = true)) /\
  h_start_time g = sched_stamp start delta (w_first c) /\
  (forall q, In q (map packet A) -> ~ In q (map packet (unanswered R))) /\ own_numbers R.
Proof.
  intros SO c recs OK L. pose proof (tw_result c recs SO OK L) as P. split; [intros E; now rewrite E in P|]. intros g E R A. rewrite E in P.
  destruct P as (CO & FG & S1 & S2 & S3 & (SA & OW) & _).
  destruct FG as (_ & _ & G1 & (_ & G2) & (_ & G3) & (_ & G4) & (_ & G5) & (_ & G6) & _ & G7 & G8 & _).
  repeat (split; [assumption|]). split.
  { rewrite G7, existsb_exists. unfold neg_delay. split; intros (x & I & Y); exists x; (split; [exact I|]); [now apply orb_true_iff|now apply orb_true_iff]. }
  split; [exact G8|]. split; [|exact OW]. intros q IA IL. apply losses_in in IL. destruct (SA q) as [X|X]; [change (losses q R = 0) in X; lia|]. apply numbers_nil in X. tauto.
Qed.

Lemma different_app : forall l l', (forall x, In x l -> ~ In x l') -> different (l ++ l') = different l + different l'.
Proof.
  intros l l'. induction l' as [|x l' IH] using rev_ind; intros D; [rewrite app_nil_r; cbn; lia|].
  rewrite app_assoc, !different_snoc, IH by (intros y I J; apply (D y I), in_app_iff; now left).
  destruct (in_dec Z.eq_dec x (l ++ l')) as [I|I]; destruct (in_dec Z.eq_dec x l') as [J|J]; try lia; exfalso.
  - apply in_app_iff in I. destruct I as [I|I]; [|tauto]. apply (D x I), in_app_iff. right. now left.
  - apply I, in_app_iff. now right.
Qed.
Lemma different_nodup : forall l, NoDup l -> different l = Z.of_nat (length l).
Proof. intros l N. unfold different. now rewrite nodup_fixed_point. Qed.
Lemma split_packets : forall R, (forall q, In q (map packet (replies R)) -> ~ In q (map packet (unanswered R))) -> packets R = packets (replies R) + packets (unanswered R).
Proof.
  intros R D. unfold packets. rewrite <- different_app by exact D. apply different_perm. intros x. rewrite <- map_app, !in_map_iff. split; intros (r & E & I); exists r; (split; [exact E|]).
  - apply in_app_iff. destruct (no_reply r) eqn:N; [right|left]; apply filter_In; now rewrite N.
  - apply in_app_iff in I. destruct I as [I|I]; apply filter_In in I; apply I.
Qed.
Lemma lost_nodup : forall R, (forall q, losses q R <= 1) -> packets (unanswered R) = Z.of_nat (length (unanswered R)).
Proof.
  intros R. induction R as [|r R IH] using rev_ind; intros O; [reflexivity|]. rewrite unanswered_snoc.
  assert (OR: forall q, losses q R <= 1). { intros q. specialize (O q). rewrite losses_snoc in O. destruct (_ && _); lia. }
  specialize (IH OR). destruct (no_reply r) eqn:N; [|rewrite app_nil_r; exact IH]. rewrite packets_snoc, app_length, IH. cbn [length].
  destruct (in_dec Z.eq_dec (packet r) (map packet (unanswered R))) as [I|I]; [|lia]. apply losses_in in I. specialize (O (packet r)).
  rewrite losses_snoc, N, Z.eqb_refl in O. cbn [andb] in O. lia.
Qed.
Lemma range_count : forall f first last recs, tw_count f (tw_range first last recs) <= tw_count f recs.
Proof. intros. unfold tw_count, tw_range. pose proof (filter_le _ (fun r => (first <=? packet r) && (packet r <? last)) f recs). lia. Qed.

(** The summary is made, every packet counts once as sent and every lost record as lost, if the replies
    arrive in step: of two replies, the one that arrives later and is not to an earlier packet does not
    have the smaller number; if the reflector's numbers are not below the range; and if no reply arrives
    for a packet scheduled more than the timeout before another answered packet was sent.  Missing: other
    sessions, for which no summary is made at all, see the following theorems. *)
Theorem C84_counts_partial : tw_session_ok -> no_wrap start npackets delta -> forall c recs, twcall_ok c -> tw_looks_at c recs -> tw_complete c recs ->
  tw_chronicle start timeout delta recs -> own_numbers recs -> in_step recs ->
  let R := tw_counting c recs in
  (forall r, In r (replies R) -> w_first c <= reply r) ->
  exists g, tw_stats c = TPOk g /\
    h_sent g = packets R /\ q_lost (h_pk g) = Z.of_nat (length (unanswered R)) /\
    q_dups0 (h_pk g) = reflections (replies R) - packets (replies R) /\
    q_dups1 (h_pk g) = Z.of_nat (length (replies R)) - reflections (replies R).
Proof.
  intros SO NW c recs OK L CO CH OW IS R FR. destruct (C84_any_file SO c recs OK L) as (NC & GO). pose proof (tw_result c recs SO OK L) as P.
  destruct (tw_stats c) as [g| |] eqn:E.
  - exists g. split; [reflexivity|]. destruct (GO g eq_refl) as (_ & G1 & G2 & G3 & G4 & _ & _ & _ & _ & _ & _ & _ & EX & _). fold R in G1, G2, G3, G4, EX.
    assert (LD: packets (unanswered R) = Z.of_nat (length (unanswered R))).
    { apply lost_nodup. intros q. destruct CH as (CH & _). destruct (CH q) as (X & _). pose proof (range_count (fun r => no_reply r && (packet r =? q)) (w_first c) (tw_upto c) recs).
      unfold losses, R, tw_counting. lia. }
    split; [rewrite G1, (split_packets R EX), LD; reflexivity|]. split; [rewrite G2; exact LD|]. auto.
  - exfalso. destruct P as [P|(a & r & b & E1 & M)]; [tauto|]. destruct OK as (_ & _ & F & N & _). eapply tchronicle_fits; eauto; lia.
  - now destruct NC.
Qed.

(** The flag "synchronized" tells nothing about the packets that were answered: if all were, it is set. *)
Theorem C84_sync_refuted : tw_session_ok -> forall c recs g, twcall_ok c -> tw_looks_at c recs -> tw_stats c = TPOk g ->
  unanswered (tw_counting c recs) = [] -> h_sync g = true.
Proof.
  intros SO c recs g OK L E U. pose proof (tw_result c recs SO OK L) as P. rewrite E in P. destruct P as (_ & (_ & _ & _ & _ & _ & _ & _ & _ & SY & _) & _).
  rewrite SY. apply forallb_forall. intros r I. unfold lost_synced. destruct (no_reply r) eqn:N; [|reflexivity]. exfalso.
  assert (X: In r (unanswered (tw_counting c recs))) by (apply filter_In; auto). rewrite U in X. exact X.
Qed.

(** A reply with a number below the range: no summary.  The reflector numbers the packets that arrive, so
    this happens for ranges that begin after a packet that was lost on its way. *)
Theorem C84_ranges_refuted : tw_session_ok -> forall c recs r, twcall_ok c -> tw_looks_at c recs -> In r (replies (tw_counting c recs)) -> reply r < w_first c ->
  tw_stats c = TPFail.
Proof.
  intros SO c recs r OK L I LT. pose proof (tw_result c recs SO OK L) as P. destruct (tw_stats c) as [g| |] eqn:E; [|reflexivity|destruct P].
  exfalso. destruct P as (_ & _ & _ & _ & _ & _ & FR). specialize (FR r I). lia.
Qed.
End P.

Print Assumptions C84_any_file.
Print Assumptions C84_counts_partial.
Print Assumptions C84_sync_refuted.
Print Assumptions C84_ranges_refuted.

(** ** Cases *)

(** a file with these records after 100 octets of header *)
Definition tw_enc (r : twrec) : list Z := match encode_twrec r with Some b => b | None => [] end.
Definition tw_file (recs : list twrec) : list Z := repeat 0 100 ++ flat_map tw_enc recs.
Definition tw_whole (recs : list twrec) (first last : Z) : twcall := mkTWCall 100 0 0 (tw_file recs) 100 first last.
(** delays in units of 2^-32 s *)
Definition units (a b : timestamp) : Z := owptime b - owptime a.
Definition units_neg (a b : timestamp) : bool := owptime b <? owptime a.
Definition units_rt (r : twrec) : Z := units (r_send (tw_sent r)) (r_recv (tw_refl r)) - units (r_recv (tw_sent r)) (r_send (tw_refl r)).
(** sessions that start at 1000 s, with a packet every second *)
Definition tw_demo_stats (timeout npackets : Z) : twcall -> tparsed := tw_stats (secs 1000) timeout npackets (fun _ => 2^32) units units_neg units_rt.
(** an answered packet sent [ds] after its scheduled time in units of 2^-32 s, and a lost one
    (written with scale 64, of which six bits are stored: read as 0) *)
Definition answered (q n ds : Z) : twrec :=
  let t := (secs (1001 + q) + ds) in
  mkTW (mkRec q (mkTS t 1 1 0) (mkTS (t + 2^28) 1 1 0) 60) (mkRec n (mkTS (t + 2^28 + 2^20) 1 1 0) (mkTS (t + 2^29) 1 1 0) 61).
Definition missing (q : Z) : twrec :=
  mkTW (mkRec q (mkTS (secs (1001 + q)) 0 1 0) (mkTS 0 1 1 0) 255) (mkRec 0 (mkTS 0 1 1 0) (mkTS 0 1 1 0) 255).
(** packet 0 was duplicated on the way to the reflector, the reply to packet 2 on the way back, packet 1 was lost *)
Definition tw_history : list twrec := [answered 0 0 1; answered 0 1 1; missing 1; answered 2 2 1; answered 2 2 1; answered 3 3 1].
Example C84_example : match tw_demo_stats (2 * 2^32) 4 (tw_whole tw_history 0 4294967295) with
  | TPOk g => h_sent g = 4 /\ q_lost (h_pk g) = 1 /\ q_dups0 (h_pk g) = 1 /\ q_dups1 (h_pk g) = 1 /\
              h_fwd g = [(2^28, 3)] /\ h_bck g = [(2^28 - 2^20, 3)] /\ h_rt g = [(2^29 - 2^20, 3)] /\ nth 60 (h_ttl0 g) 0 = 3 /\ nth 61 (h_ttl1 g) 0 = 3
  | _ => False end.
Proof. vm_compute. auto 10. Qed.

(** Client and reflector: packet 0 is overtaken by packet 1 on its way, and the reply to 1 by the reply to
    0.  Nothing is lost, all replies arrive within half a second. *)
Definition tw2 (timeout : Z) := run_tw toyE toyE toyH 1 [] [] [] (secs 1000) timeout 2 (fun _ => 2^32) 14.
Definition tw_swap1 : list tenv := [tsnd 1001 900000000 TSOk; trcv 1001 950000000 TxFail true; tsnd 1002 100000000 TSOk].
Definition fe_at (t n : Z) (pkt : list Z) : fenv := mkFE CNone (FxData true true pkt 60) false CNone (Some ((t, n), 10, 1)) CNone [mkFA (Some ((t, n + 1000), 10, 1)) false SendOK].
Definition sent_packet (o : tout) (q : nat) : list Z := match nth_error (tw_sentlog o) q with Some s => s_pkt s | None => [] end.
Definition sent_reply (fs : list fenv) (n : nat) : list Z := match nth_error (flog (run_reflector toyE toyE toyH 1 [] [] [] 14 fs)) n with Some r => rp_pkt r | None => [] end.
Definition swap_reflector : list fenv := [fe_at 1002 150000000 (sent_packet (tw2 (2 * 2^32) tw_swap1) 1); fe_at 1002 160000000 (sent_packet (tw2 (2 * 2^32) tw_swap1) 0)].
Definition tw_swap : list tenv := tw_swap1 ++ [trcv 1002 200000000 (TxData true (sent_reply swap_reflector 1) 61) false; trcv 1002 250000000 (TxData true (sent_reply swap_reflector 0) 61) false;
  trcv 1009 0 TxFail true].

Ltac octets_by_computation := let X := fresh in match goal with |- octets ?l => assert (X: forallb (fun b => (0 <=? b) && (b <? 256)) l = true) by (vm_compute; reflexivity);
  rewrite forallb_forall in X; apply Forall_forall; let b := fresh in let Hb := fresh in intros b Hb; specialize (X b Hb); unfold is_u8; lia end.
Ltac tenvs_by_computation := repeat (apply Forall_cons || apply Forall_nil); (split; [apply tw_reading; lia|]); (split; [|reflexivity]); try exact I; cbn [te_rx trcv]; octets_by_computation.
Definition no_sent : Twoway_Model.sent := mkSent 0 [] (0, 0) TSOk.
(** the reflector gets packets of the client, and the client gets replies of the reflector *)
Definition connected (timeout : Z) (es : list tenv) (fs : list fenv) : Prop :=
  Forall (fun f => exists s ttl, In s (tw_sentlog (tw2 timeout es)) /\ fe_rx f = FxData true true (s_pkt s) ttl) fs /\
  incl (flat_map (fun e => match te_rx e with TxData _ data _ => [data] | TxFail => [] end) es) (map rp_pkt (flog (run_reflector toyE toyE toyH 1 [] [] [] 14 fs))).
Lemma incl_by_computation : forall l l', forallb (fun d => existsb (eqb_octets d) l') l = true -> incl l l'.
Proof.
  intros l l' H d I. rewrite forallb_forall in H. specialize (H d I). apply existsb_exists in H. destruct H as (x & J & E). apply eqb_octets_spec in E. now subst.
Qed.

(** The summary of a session can fail altogether although every packet was answered in time and only once:
    packet 0 is overtaken by packet 1 on its way, the reply to packet 1 by the reply to packet 0. *)
Theorem C84_reordered_refuted : exists es fs, Forall (tenv_ok Plain 14) es /\ connected (2 * 2^32) es fs /\
  (exists st, tw2 (2 * 2^32) es = TEnd st) /\
  map (fun r => (packet r, reply r, no_reply r)) (tw_records (tw2 (2 * 2^32) es)) = [(0, 1, false); (1, 0, false)] /\
  Forall (fun r => owptime (r_recv (tw_refl r)) - owptime (r_send (tw_sent r)) < 2^31) (tw_records (tw2 (2 * 2^32) es)) /\
  tw_demo_stats (2 * 2^32) 2 (tw_whole (tw_records (tw2 (2 * 2^32) es)) 0 2) = TPFail.
Proof.
  exists tw_swap, swap_reflector. split; [unfold tw_swap, tw_swap1; cbn [app]; tenvs_by_computation|]. split.
  { split.
    - unfold swap_reflector. apply Forall_cons; [|apply Forall_cons; [|apply Forall_nil]].
      + exists (nth 1 (tw_sentlog (tw2 (2 * 2^32) tw_swap)) no_sent), 60. split; [apply nth_In; vm_compute; lia|vm_compute; reflexivity].
      + exists (nth 0 (tw_sentlog (tw2 (2 * 2^32) tw_swap)) no_sent), 60. split; [apply nth_In; vm_compute; lia|vm_compute; reflexivity].
    - apply incl_by_computation. vm_compute. reflexivity. }
  split; [eexists; vm_compute; reflexivity|]. split; [vm_compute; reflexivity|]. split; [|vm_compute; reflexivity].
  assert (X: forallb (fun r => owptime (r_recv (tw_refl r)) - owptime (r_send (tw_sent r)) <? 2^31) (tw_records (tw2 (2 * 2^32) tw_swap)) = true) by (vm_compute; reflexivity).
  rewrite forallb_forall in X. apply Forall_forall. intros r I. specialize (X r I). lia.
Qed.
Print Assumptions C84_reordered_refuted.

Definition tw_late1 : list tenv := [tsnd 1001 500000000 TSOk; trcv 1001 950000000 TxFail true; tsnd 1002 200000000 TSOk].
Definition late_reflector : list fenv := [fe_at 1002 0 (sent_packet (tw2 (2^32) tw_late1) 0); fe_at 1002 250000000 (sent_packet (tw2 (2^32) tw_late1) 1)].
Definition tw_late : list tenv := tw_late1 ++ [trcv 1002 300000000 (TxData true (sent_reply late_reflector 1) 61) false; trcv 1002 400000000 (TxData true (sent_reply late_reflector 0) 61) false;
  trcv 1009 0 TxFail true].
(** Neither is one made if a packet was sent half a second late, and its reply, within the timeout of one
    second, comes after the reply to the next packet: the client records it as answered, but the summary
    counts the timeout from the scheduled time on. *)
Theorem C84_late_refuted : exists es fs, Forall (tenv_ok Plain 14) es /\ connected (2^32) es fs /\
  (exists st, tw2 (2^32) es = TEnd st) /\
  map (fun r => (packet r, reply r, no_reply r)) (tw_records (tw2 (2^32) es)) = [(1, 1, false); (0, 0, false)] /\
  Forall (fun r => owptime (r_recv (tw_refl r)) - owptime (r_send (tw_sent r)) < 2^32) (tw_records (tw2 (2^32) es)) /\
  tw_demo_stats (2^32) 2 (tw_whole (tw_records (tw2 (2^32) es)) 0 2) = TPFail.
Proof.
  exists tw_late, late_reflector. split; [unfold tw_late, tw_late1; cbn [app]; tenvs_by_computation|]. split.
  { split.
    - unfold late_reflector. apply Forall_cons; [|apply Forall_cons; [|apply Forall_nil]].
      + exists (nth 0 (tw_sentlog (tw2 (2^32) tw_late)) no_sent), 60. split; [apply nth_In; vm_compute; lia|vm_compute; reflexivity].
      + exists (nth 1 (tw_sentlog (tw2 (2^32) tw_late)) no_sent), 60. split; [apply nth_In; vm_compute; lia|vm_compute; reflexivity].
    - apply incl_by_computation. vm_compute. reflexivity. }
  split; [eexists; vm_compute; reflexivity|]. split; [vm_compute; reflexivity|]. split; [|vm_compute; reflexivity].
  assert (X: forallb (fun r => owptime (r_recv (tw_refl r)) - owptime (r_send (tw_sent r)) <? 2^32) (tw_records (tw2 (2^32) tw_late)) = true) by (vm_compute; reflexivity).
  rewrite forallb_forall in X. apply Forall_forall. intros r I. specialize (X r I). lia.
Qed.
Print Assumptions C84_late_refuted.

(** The end time of the summary is not always the scheduled time of the last packet: it is that of packet 0
    if packet 0 was duplicated on its way, and packet 1, the last one, lost. *)
Theorem C84_end_time_refuted : exists recs g, tw_chronicle (secs 1000) (2 * 2^32) (fun _ => 2^32) recs /\ own_numbers recs /\ in_step recs /\
  tw_demo_stats (2 * 2^32) 2 (tw_whole recs 0 2) = TPOk g /\
  q_end_time (h_pk g) = sched_stamp (secs 1000) (fun _ => 2^32) 0 /\ sched_stamp (secs 1000) (fun _ => 2^32) 1 = q_end_time (h_pk g) + 2^32.
Proof.
  exists [answered 0 0 1; answered 0 1 1; missing 1]. eexists. split; [|split; [|split; [|split; [vm_compute; reflexivity|split; vm_compute; reflexivity]]]].
  - split.
    + intros q. unfold tw_count. cbn [filter]. change (no_reply (answered 0 0 1)) with false. change (no_reply (answered 0 1 1)) with false. change (no_reply (missing 1)) with true.
      change (packet (answered 0 0 1)) with 0. change (packet (answered 0 1 1)) with 0. change (packet (missing 1)) with 1. cbn [negb andb]. split.
      * destruct (1 =? q); cbn; lia.
      * destruct (Z.eqb_spec 1 q) as [<-|X]; [right; vm_compute; reflexivity|left; reflexivity].
    + intros [|[|[|i]]] [|[|[|j]]] r s L NR NS; cbn [nth_error] in NR, NS; try lia; try (destruct i; discriminate); try (destruct j; discriminate);
        injection NR as <-; injection NS as <-; vm_compute; discriminate.
  - intros r s I J. cbn [replies filter] in I, J.
    change (negb (no_reply (answered 0 0 1))) with true in *. change (negb (no_reply (answered 0 1 1))) with true in *. change (negb (no_reply (missing 1))) with false in *.
    destruct I as [<-|[<-|[]]]; destruct J as [<-|[<-|[]]]; vm_compute; auto.
  - intros i j r s L NR NS. cbn [replies filter] in NR, NS.
    change (negb (no_reply (answered 0 0 1))) with true in *. change (negb (no_reply (answered 0 1 1))) with true in *. change (negb (no_reply (missing 1))) with false in *.
    destruct i as [|[|i]]; destruct j as [|[|j]]; cbn [nth_error] in NR, NS; try lia; try (destruct i; discriminate); try (destruct j; discriminate);
      injection NR as <-; injection NS as <-; vm_compute; discriminate.
Qed.
Print Assumptions C84_end_time_refuted.

(** the hypotheses of [C84_counts_partial] can be met, with duplicates both ways and a loss *)
Ltac readable_by_computation := split; [vm_compute; lia|]; split; [|vm_compute; lia];
  let i := fresh "i" in let r := fresh "r" in let E := fresh "E" in intros i r E;
  repeat (destruct i as [|i]; [cbn [nth_error] in E; injection E as <-; split; [vm_compute; lia|vm_compute; reflexivity]|cbn [nth_error] in E]); destruct i; discriminate.
Definition tw_case : list twrec := [answered 0 0 1; answered 0 1 1; missing 1; answered 2 2 1; answered 2 2 1].
Example C84_case : tw_session_ok (secs 1000) 3 (fun _ => 2^32) /\ no_wrap (secs 1000) 3 (fun _ => 2^32) /\ twcall_ok 3 (tw_whole tw_case 0 3) /\
  tw_looks_at (tw_whole tw_case 0 3) tw_case /\ tw_complete (tw_whole tw_case 0 3) tw_case /\
  tw_chronicle (secs 1000) (2 * 2^32) (fun _ => 2^32) tw_case /\ own_numbers tw_case /\ in_step tw_case /\ (forall r, In r (replies (tw_counting 3 (tw_whole tw_case 0 3) tw_case)) -> 0 <= reply r).
Proof.
  split. { unfold tw_session_ok, secs. split; [lia|]; split; [intros _; lia|lia]. }
  split. { split; [unfold secs; lia|]. split; [lia|]. vm_compute. reflexivity. }
  split. { split; [cbn; lia|]. split; [|vm_compute; intuition discriminate]. octets_by_computation. }
  split; [unfold tw_case; readable_by_computation|]. split; [vm_compute; reflexivity|]. split.
  { split.
    - intros q. unfold tw_case, tw_count. cbn [filter]. repeat match goal with |- context[no_reply ?x] => let v := eval vm_compute in (no_reply x) in change (no_reply x) with v end.
      repeat match goal with |- context[packet ?x] => let v := eval vm_compute in (packet x) in change (packet x) with v end. cbn [negb andb]. split.
      + destruct (1 =? q); cbn; lia.
      + destruct (Z.eqb_spec 1 q) as [<-|X]; [right; vm_compute; reflexivity|left; reflexivity].
    - intros i j r s L NR NS. destruct i as [|[|[|[|[|i]]]]]; try (destruct i; discriminate); destruct j as [|[|[|[|[|j]]]]]; try (destruct j; discriminate); try lia; cbn [nth_error tw_case] in NR, NS;
        injection NR as <-; injection NS as <-; vm_compute; discriminate. }
  assert (RP: replies tw_case = [answered 0 0 1; answered 0 1 1; answered 2 2 1; answered 2 2 1]) by (vm_compute; reflexivity).
  split. { intros r s I J. rewrite RP in I, J. cbn [In] in I, J. destruct I as [<-|[<-|[<-|[<-|[]]]]]; destruct J as [<-|[<-|[<-|[<-|[]]]]]; vm_compute; congruence. }
  split. { intros i j r s L NR NS. rewrite RP in NR, NS. destruct i as [|[|[|[|i]]]]; try (destruct i; discriminate); destruct j as [|[|[|[|j]]]]; try (destruct j; discriminate); try lia; cbn [nth_error] in NR, NS;
        injection NR as <-; injection NS as <-; vm_compute; congruence. }
  assert (RC: replies (tw_counting 3 (tw_whole tw_case 0 3) tw_case) = [answered 0 0 1; answered 0 1 1; answered 2 2 1; answered 2 2 1]) by (vm_compute; reflexivity).
  intros r I. rewrite RC in I. cbn [In] in I. destruct I as [<-|[<-|[<-|[<-|[]]]]]; vm_compute; discriminate.
Qed.
(** a case of [C84_ranges_refuted]: packet 0 was lost on its way, the reply to packet 1 is the first one.  The summary from
    packet 0 on is made, that from packet 1 on is not. *)
Example C84_ranges_example : let recs := [missing 0; answered 1 0 1] in
  tw_looks_at (tw_whole recs 1 2) recs /\ (exists r, In r (replies (tw_counting 2 (tw_whole recs 1 2) recs)) /\ reply r < 1) /\
  tw_demo_stats (2 * 2^32) 2 (tw_whole recs 1 2) = TPFail /\ (exists g, tw_demo_stats (2 * 2^32) 2 (tw_whole recs 0 2) = TPOk g /\ h_sent g = 2 /\ q_lost (h_pk g) = 1).
Proof.
  intros recs. split; [unfold recs; readable_by_computation|]. split; [exists (answered 1 0 1); split; [vm_compute; auto|vm_compute; reflexivity]|]. split; [vm_compute; reflexivity|].
  eexists. split; [vm_compute; reflexivity|]. split; reflexivity.
Qed.
(** a case of [C84_sync_refuted]: no clock was synchronized *)
Definition unsynced : twrec := let t := secs 1001 + 1 in
  mkTW (mkRec 0 (mkTS t 0 1 0) (mkTS (t + 2^28) 0 1 0) 60) (mkRec 0 (mkTS (t + 2^28 + 2^20) 0 1 0) (mkTS (t + 2^29) 0 1 0) 61).
Example C84_sync_example : tw_looks_at (tw_whole [unsynced] 0 1) [unsynced] /\ exists g, tw_demo_stats (2 * 2^32) 1 (tw_whole [unsynced] 0 1) = TPOk g /\ h_sync g = true.
Proof. split; [readable_by_computation|]. eexists. split; [vm_compute; reflexivity|reflexivity]. Qed.

(** ** C85 *)

(** the object after these records *)
Fixpoint after_records (timeout : Z) (delta : nat -> Z) (bucket : timestamp -> timestamp -> Z) (negative : timestamp -> timestamp -> bool) (bucket_rt : twrec -> Z)
  (recs : list twrec) (g : tstats) : option tstats :=
  match recs with
  | [] => Some g
  | r :: t => match titerate timeout 50 delta bucket negative bucket_rt r g with TRet 0 g => after_records timeout delta bucket negative bucket_rt t g | _ => None end
  end.
(** Nodes in the buffers after any records: for sent packets at most as many as there are packets.  Missing:
    a bound for the buffer of replies, other than the 2^32 possible numbers. *)
Theorem C85_memory_partial : forall start timeout delta bucket negative bucket_rt begin first last odata recs g g', 0 <= start < 2^64 -> (forall n, 0 <= delta n) ->
  0 <= first <= last -> first < 2^32 - 1 -> last < 2^32 -> 0 < odata -> Forall octet_fields recs -> tprepare start delta begin first last odata = Some g ->
  after_records timeout delta bucket negative bucket_rt recs g = Some g' ->
  Z.of_nat (length (tb_list (q_fwd (h_pk g')))) <= Z.max 1 (last - first) /\ Z.of_nat (length (tb_list (q_bck (h_pk g')))) <= 2^32.
Proof.
  intros start timeout delta bucket negative bucket_rt begin first last odata recs g g' S0 D F FB LB O TT P.
  destruct (tprepare_inv (start := start) (timeout := timeout) (rec_size := 50) (delta := delta) (bucket := bucket) (negative := negative) (bucket_rt := bucket_rt) begin first last odata S0 D F FB) as (g0 & P0 & I).
  rewrite P0 in P. injection P as ->. clear P0. revert I. generalize (@nil twrec). revert g. induction recs as [|r recs IH]; intros g done I E; cbn [after_records] in E.
  - injection E as <-. destruct I as (lo & lob & (_ & _ & FW & BK & _ & _ & _ & _ & TB) & _). destruct FW as (_ & _ & L0 & L1 & _). destruct BK as (_ & _ & B0 & _).
    unfold flen, blen in *. lia.
  - apply Forall_cons_iff in TT. destruct TT as ((T0 & T1 & T2) & TT).
    pose proof (titerate_inv (rec_size := 50) first last (Z.max begin odata) done g r ltac:(lia) LB ltac:(lia) ltac:(lia) T0 T1 T2 I) as ST.
    destruct (titerate timeout 50 delta bucket negative bucket_rt r g) as [rc g1|]; [|discriminate]. destruct ST as [(-> & I1)|(-> & _)]; [|discriminate].
    exact (IH TT g1 (done ++ [r]) I1 E).
Qed.
Print Assumptions C85_memory_partial.

(** A single record, of a reply that claims to be number n, makes the program allocate n nodes, for any n up to 2^32. *)
Theorem C85_memory_refuted : forall n, 1 <= n < 2^32 -> exists g, tprepare (secs 1000) (fun _ => 2^32) 100 0 2 100 = Some g /\ exists g',
  after_records (2 * 2^32) (fun _ => 2^32) units units_neg units_rt [answered 0 n 1] g = Some g' /\ Z.of_nat (length (tb_list (q_bck (h_pk g')))) = n + 1.
Proof.
  intros n N. eexists. split; [vm_compute; reflexivity|].
  match goal with |- context[after_records _ _ _ _ _ _ ?x] => set (g := x) end.
  cbn [after_records]. unfold titerate. cbv zeta.
  change (r_seq (tw_sent (answered 0 n 1))) with 0. change (r_seq (tw_refl (answered 0 n 1))) with n. change (tis_lost (answered 0 n 1)) with false.
  change (r_send (tw_sent (answered 0 n 1))) with (r_send (tw_sent (answered 0 0 1))). change ((0 <? h_first g) || (h_last g <=? 0)) with false. cbv iota.
  change (h_first g) with 0. change (h_last g) with 2.
  match goal with |- context[tflush_while ?z ?a ?b ?c ?d ?e ?f] => let v := eval vm_compute in (tflush_while z a b c d e f) in
    assert (X: tflush_while z a b c d e f = v) by (vm_compute; reflexivity); rewrite X; clear X end.
  match goal with |- context[tsync ?a ?b ?c ?d] => let v := eval vm_compute in (tsync a b c d) in
    assert (X: tsync a b c d = v) by (vm_compute; reflexivity); rewrite X; clear X end.
  match goal with |- context[tpacket_get ?a false ?c ?d ?e ?f] => let v := eval vm_compute in (tpacket_get a false c d e f) in
    assert (X: tpacket_get a false c d e f = v) by (vm_compute; reflexivity); rewrite X; clear X end.
  cbv iota. cbn [n_seen n_lost n_seq n_time n_assoc].
  match goal with |- context[tpacket_get _ true _ _ _ ?x] => set (k := x) end.
  assert (RN: trun 0 (tb_list (tbuffer true k))). { intros [|i] p E; [cbn in E; injection E as <-; reflexivity|destruct i; discriminate]. }
  pose proof (tget_spec (start := secs 1000) (delta := fun _ => 2^32) true 0 2 k 0 n ltac:(discriminate) RN ltac:(lia) eq_refl ltac:(now left)) as G.
  replace (n <? 0) with false in G by (symmetry; apply Z.ltb_ge; lia).
  destruct G as (k' & ext & p & E & L & LE & _ & _ & FR & _ & _ & _ & _ & _ & _ & NTH & _). rewrite E. clear E.
  assert (FP: n_seen p = 0).
  { rewrite L in NTH. replace (Z.to_nat (n - 0)) with (S (Z.to_nat (n - 1))) in NTH by lia. change (tb_list (tbuffer true k)) with [hd p (tb_list (tbuffer true k))] in NTH. cbn [app nth_error] in NTH.
    apply nth_error_In in NTH. rewrite Forall_forall in FR. destruct (FR p NTH) as (X & _). exact X. }
  rewrite FP. cbn [Z.eqb negb andb n_seen Z.ltb Z.compare Z.add Pos.compare Pos.compare_cont orb].
  eexists. split; [reflexivity|].
  cbn [h_pk]. unfold tset_pkt. cbn [tset_buf tbuffer q_bck q_fwd tb_list]. rewrite map_length.
  cbn [tbuffer] in L, LE. rewrite L. rewrite app_length. change (length (tb_list (q_bck k))) with 1%nat in *. change (Z.of_nat 1) with 1 in LE. lia.
Qed.
Print Assumptions C85_memory_refuted.
