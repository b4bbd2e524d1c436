(** Property theorems about the statistics of one-way sessions: C44 (numbers of packets), C45
    (reordering), C46 (percentiles and TTLs), C47 (re-use of the object) and C69 (consecutive ranges).
    Vocabulary: Stats_Spec.v. *)
From Coq Require Import ZArith List Bool Lia ZifyBool ZifyNat Arith Sorted Permutation.
From Verif Require Import Base BaseLemmas Arith_Model Time_Model Wire_Model Wire_Spec Control_Model File_Model File_Spec File_Proofs File_Updates
  Packet_Model Sender_Spec Receiver_Model Receiver_Spec Receiver_Run Toy Props_Receiver
  Double Double_Proofs Stats_Model Stats_Spec Stats_Proofs Stats_Iter Stats_Parse Stats_Report Receiver_Chronicle.
Import ListNotations.
Open Scope Z_scope.

(** A call of OWPStatsParse.  The record data may have changed between calls, it is part of the call. *)
Record call := mkCall { c_version : Z; c_odata : Z; c_oskip : Z; c_limit : Z; c_file : list Z; c_begin : Z; c_first : Z; c_last : Z }.

Section P.
Variable start timeout npackets rec_size : Z.
Variable skips : list skiprec.
Variable delta : nat -> Z.
Variable rlistlen : nat.
Variable bucket : timestamp -> timestamp -> Z.

Definition do_call (c : call) (g : stats) : parsed :=
  parse start timeout npackets rec_size skips delta rlistlen bucket (c_version c) (c_odata c) (c_oskip c) (c_limit c) (c_file c) (c_begin c) (c_first c) (c_last c) g.
(** 2^32-1 as the end of the range stands for the end of the session *)
Definition upto (c : call) : Z := if c_last c =? 4294967295 then npackets else c_last c.
Definition reclen (c : call) : Z := if c_version c =? 3 then 25 else 24.
Definition call_ok (c : call) : Prop :=
  (c_version c = 0 \/ c_version c = 2 \/ c_version c = 3) /\ 0 < c_odata c /\ octets (c_file c) /\ rec_size = reclen c /\
  0 <= c_first c <= upto c /\ upto c <= npackets /\ c_first c < 2^32 - 1.
(** number of records announced by the size of the file *)
Definition wanted_records (c : call) : Z := nrecs (rec_size := rec_size) (c_odata c) (c_oskip c) (c_limit c) (c_file c) (c_begin c).
(** [recs]: the records from the starting position on, as far as they can be decoded; complete: as many as announced *)
Definition looks_at (c : call) (recs : list datarec) : Prop :=
  readable (decode_datarec (c_version c)) (c_file c) (Z.to_nat (Z.max (c_begin c) (c_odata c))) (Z.to_nat (reclen c)) (Z.to_nat (wanted_records c)) recs.
Definition complete (c : call) (recs : list datarec) : Prop := length recs = Z.to_nat (wanted_records c).

Definition session_ok : Prop := 0 <= start < 2^64 /\ (forall n, 0 <= delta n) /\ (0 < rlistlen)%nat.
(** the objects that exist: new ones, and those left by any number of calls *)
Inductive obtained : bool -> stats -> Prop :=
  | obt_new : obtained false (create start skips rlistlen)
  | obt_call : forall used g c g', obtained used g -> call_ok c -> do_call c g = POk g' \/ do_call c g = PFail g' -> obtained true g'.

(** the records of the range that count *)
Definition counting (c : call) (recs : list datarec) : list datarec := relevant (c_first c) (upto c) skips recs.

Lemma decode_ttl : forall v b r, octets b -> decode_datarec v b = Some r -> 0 <= r_ttl r < 256.
Proof.
  intros v b r O. pose proof (byte_bound 24 b O) as B. unfold decode_datarec.
  destruct (_ || _); [|destruct (v =? 3); [|discriminate]];
    repeat match goal with |- context[decode_errest ?x ?y] => destruct (decode_errest x y) as [[? ?] [|]] end; try discriminate; intros [= <-]; cbn [r_ttl]; lia.
Qed.
Lemma looks_ttl : forall c recs, call_ok c -> looks_at c recs -> Forall (fun r => 0 <= r_ttl r < 256) recs.
Proof.
  intros c recs (_ & _ & O & _) (_ & L & _). apply Forall_forall. intros r I. apply In_nth_error in I. destruct I as (i & I). destruct (L i r I) as (_ & X).
  eapply decode_ttl; [|exact X]. unfold nth_record, octs_at. apply sub_octets. exact O.
Qed.
Lemma looks_exist : forall c, exists recs, looks_at c recs.
Proof. intros c. apply readable_exists. Qed.

Notation usable := (@usable start delta rlistlen).
Notation summary := (@summary start rec_size skips delta rlistlen bucket).
Notation misfit := (@misfit start timeout skips delta).

Lemma call_result : forall used g c recs, session_ok -> usable used g -> call_ok c -> looks_at c recs ->
  match do_call c g with
  | PCrash => used = true /\ c_first c = 0
  | PFail g' => usable true g' /\ (~ complete c recs \/ exists a r b, recs = a ++ r :: b /\ misfit (c_first c) (upto c) a r)
  | POk g' => usable true g' /\ complete c recs /\ summary (c_first c) (upto c) (Z.max (c_begin c) (c_odata c)) recs g'
  end /\ (do_call c g = PCrash <-> used = true /\ c_first c = 0).
Proof.
  intros used g c recs (S0 & D & _) U OK L. pose proof (looks_ttl c recs OK L) as TT. destruct OK as (V & O & _ & RS & F & N & B).
  assert (RS0: 0 <= rec_size) by (rewrite RS; unfold reclen; destruct (_ =? 3); lia).
  assert (RD: readable (decode_datarec (c_version c)) (c_file c) (Z.to_nat (Z.max (c_begin c) (c_odata c))) (if c_version c =? 3 then 25%nat else 24%nat) (Z.to_nat (wanted_records c)) recs).
  { unfold looks_at, reclen in L. destruct (c_version c =? 3); exact L. }
  pose proof (parse_result (start := start) (timeout := timeout) (npackets := npackets) (rec_size := rec_size) (skips := skips) (delta := delta) (rlistlen := rlistlen) (bucket := bucket)
    (c_version c) (c_odata c) (c_oskip c) (c_limit c) (c_file c) (c_begin c) (c_first c) (c_last c) (upto c) used g recs S0 D O RS0 V F B N eq_refl U RD TT) as P.
  fold (do_call c g) in P. fold (wanted_records c) in P. destruct P as (P & Q). split; [|exact Q].
  destruct (do_call c g) as [g'|g'|]; auto. destruct P as (P1 & [P2|P2]); split; auto. left. unfold complete. lia.
Qed.
Lemma obtained_usable : session_ok -> forall used g, obtained used g -> usable used g.
Proof.
  intros SO used g O. induction O as [|used g c g' O IH OK R]; [apply create_usable; apply SO|].
  destruct (looks_exist c) as (recs & L). destruct (call_result used g c recs SO IH OK L) as (P & _). destruct R as [R|R]; rewrite R in P; apply P.
Qed.

(** ** C44 *)

(** Whatever the file contains: if a summary is made at all, then of all the records from the starting
    position on, and these are its figures.  A packet with several lost records would be counted several
    times as sent, files of a receiver have none (next theorem). *)
Theorem C44_any_file : session_ok -> forall used g c recs g', obtained used g -> call_ok c -> looks_at c recs -> do_call c g = POk g' ->
  let R := counting c recs in
  complete c recs /\
  g_sent g' = distinct (arrived R) + Z.of_nat (length (lost R)) /\
  p_lost (g_pk g') = distinct (lost R) /\
  p_dups0 (g_pk g') = Z.of_nat (length (arrived R)) - distinct (arrived R) /\
  (forall q, In q (map r_seq (arrived R)) -> ~ In q (map r_seq (lost R))) /\
  g_sync g' = forallb synced R /\
  g_start_time g' = sched_stamp start delta (c_first c) /\ p_end_time (g_pk g') = sched_stamp start delta (Z.max (c_first c) (upto c - 1)).
Proof.
  intros SO used g c recs g' O OK L E R. destruct (call_result used g c recs SO (obtained_usable SO _ _ O) OK L) as (P & _). rewrite E in P.
  destruct P as (_ & CO & _ & S1 & S2 & S3 & _ & _ & _ & _ & _ & S4 & _ & S5 & S6 & (_ & S7)). change (relevant (c_first c) (upto c) skips recs) with R in *.
  repeat (split; [assumption|]). split; [|auto]. intros q A B. apply received_in in A. apply lost_in in B. specialize (S7 q). lia.
Qed.

(** The records of a receiver: the summary is made, every packet counts once as sent, every lost
    record as lost, every received record of a packet after its first as duplicate. *)
Theorem C44_counts : session_ok -> no_wrap start npackets delta ->
  forall used g c recs, obtained used g -> (used = true -> c_first c <> 0) -> call_ok c -> looks_at c recs -> complete c recs ->
  chronicle start timeout delta recs ->
  let R := counting c recs in
  exists g', do_call c g = POk g' /\
    g_sent g' = distinct R /\ p_lost (g_pk g') = Z.of_nat (length (lost R)) /\
    p_dups0 (g_pk g') = Z.of_nat (length (arrived R)) - distinct (arrived R).
Proof.
  intros SO NW used g c recs O NC OK L CO CH R. destruct (call_result used g c recs SO (obtained_usable SO _ _ O) OK L) as (P & Q).
  destruct (do_call c g) as [g'|g'|] eqn:E.
  - destruct P as (_ & _ & _ & S1 & S2 & S3 & _ & _ & _ & _ & _ & _ & _ & _ & _ & (_ & S7)). change (relevant (c_first c) (upto c) skips recs) with R in *.
    assert (LD: distinct (lost R) = Z.of_nat (length (lost R))).
    { apply distinct_nodup. apply lost_once. intros q. destruct CH as (CH & _). destruct (CH q) as (X & _).
      pose proof (filter_le _ (fun r => in_range (c_first c) (upto c) r && negb (not_sent skips (r_seq r))) (fun x => (r_seq x =? q) && is_lost x) recs) as FL.
      unfold R, counting, relevant, lost_of in *. lia. }
    exists g'. split; [reflexivity|]. rewrite (distinct_split R S7), <- LD in *. auto.
  - exfalso. destruct P as (_ & [P|(a & r & b & E1 & M)]); [tauto|]. destruct OK as (_ & _ & _ & _ & F & N & _).
    eapply chronicle_fits; eauto; lia.
  - exfalso. destruct P as (-> & P). now apply NC.
Qed.

(** If moreover every packet of the range has a record or is declared as not sent, then the number
    of packets sent is exactly the number of packets of the range not declared as not sent. *)
Theorem C44_all_packets : session_ok -> no_wrap start npackets delta ->
  forall used g c recs, obtained used g -> (used = true -> c_first c <> 0) -> call_ok c -> looks_at c recs -> complete c recs ->
  chronicle start timeout delta recs ->
  (forall q, c_first c <= q < upto c -> (exists r, In r recs /\ r_seq r = q) \/ not_sent skips q = true) ->
  exists g', do_call c g = POk g' /\
    g_sent g' = Z.of_nat (length (filter (fun q => negb (not_sent skips q)) (map (fun n => c_first c + Z.of_nat n) (seq 0 (Z.to_nat (upto c - c_first c)))))).
Proof.
  intros SO NW used g c recs O NC OK L CO CH A. destruct (C44_counts SO NW used g c recs O NC OK L CO CH) as (g' & E & S & _). exists g'. split; [exact E|].
  rewrite S. apply distinct_full; [|exact A]. destruct OK as (_ & _ & _ & _ & F & _). lia.
Qed.

(** What a receiver writes, at any time, however it ends, is such a history: for sessions within the
    years 1970 to 2036, and a loss timeout of less than 70 years. *)
Theorem C44_receiver : forall D H mode aeskey hmackey fudge cl es,
  rsession_ok start timeout npackets delta -> in_era start npackets delta -> no_wrap start npackets delta -> timeout <= 2208988800 * 2^32 ->
  (forall b, octets b -> octets (D aeskey b)) -> environment cl es ->
  (forall t er sy, In (Some (t, er, sy)) (cl :: map re_clock es) -> fst t < 2^32 - 2208988800) ->
  chronicle start timeout delta (recs_of (run_receiver D H mode aeskey hmackey start timeout npackets delta fudge cl None es)).
Proof.
  intros D H mode aeskey hmackey fudge cl es OK ERA (_ & _ & NW) TO DO (RO & EO & CO) CK.
  destruct (run_acct D H mode aeskey hmackey start timeout npackets delta fudge OK DO cl None es RO EO) as (b & w & A & F).
  apply (run_chronicle D H mode aeskey hmackey start timeout npackets delta fudge OK ERA DO cl es RO EO CO NW TO) ; [| reflexivity | eauto |].
  - intros t er sy I. split; [|specialize (CK t er sy I); lia]. destruct I as [-> | I]; [apply RO|]. apply in_map_iff in I. destruct I as (e & E & I).
    rewrite Forall_forall in EO. destruct (EO e I) as (X & _). rewrite E in X. apply X.
  - eapply Forall_impl; [|exact F]. intros r X. unfold rok in X. destruct (is_lost r); [apply X|]. destruct X as (? & ? & ? & ? & ? & X). apply X.
Qed.

(** ** C45 *)

(** The counters count what the definition says, for n up to the length of the counters, but over all
    received packets, including duplicates.  Missing: duplicates should be left out. *)
Theorem C45_reordering_partial : session_ok -> forall used g c recs g', obtained used g -> call_ok c -> looks_at c recs -> do_call c g = POk g' ->
  let R := counting c recs in
  length (o_n (g_ro g')) = rlistlen /\
  (forall n, (1 <= n <= rlistlen)%nat -> nth (n - 1) (o_n (g_ro g')) 0 = reordered n (map r_seq (arrived R))) /\
  (NoDup (map r_seq (arrived R)) ->
   forall n, (1 <= n <= rlistlen)%nat -> nth (n - 1) (o_n (g_ro g')) 0 = reordered n (map r_seq (first_copies [] (arrived R)))).
Proof.
  intros SO used g c recs g' O OK L E R. destruct (call_result used g c recs SO (obtained_usable SO _ _ O) OK L) as (P & _). rewrite E in P.
  destruct P as (_ & CO & _ & _ & _ & _ & RI & _). change (relevant (c_first c) (upto c) skips recs) with R in RI. destruct RI as (_ & _ & R3 & _ & _ & _ & R7). rewrite rev_involutive in R7.
  assert (X: forall n, (1 <= n <= rlistlen)%nat -> nth (n - 1) (o_n (g_ro g')) 0 = reordered n (map r_seq (arrived R))).
  { intros n Hn. rewrite R7 by lia. f_equal. lia. }
  split; [exact R3|]. split; [exact X|]. intros ND n Hn. rewrite copies_nodup; auto.
Qed.
(** The output stops at the first n without reordered packets; no larger n has any. *)
Theorem C45_stops : forall n m l, (n <= m)%nat -> reordered n l = 0 -> reordered m l = 0.
Proof. exact reordered_zero. Qed.

(** ** C46 *)

(** Percentiles.  [s]: the buckets, sorted; [an]/[ad]: the fraction asked for, as a double.  The
    result is a bucket that occurs, and no smaller one that occurs holds (with those below it) the
    fraction; the bucket itself does, up to rounding of the product with the number of packets (a
    relative error of 2^-53).  No result: no bucket holds the fraction.  Missing: without the
    rounding error. *)
Theorem C46_percentile_partial : session_ok -> forall used g c recs g', obtained used g -> call_ok c -> looks_at c recs -> do_call c g = POk g' ->
  let R := counting c recs in
  let delay r := bucket (r_send r) (r_recv r) in
  let upto b := count (fun r => delay r <=? b) (first_copies [] (arrived R)) in
  Z.of_nat (length recs) < 2^32 ->
  forall s an ad, Permutation (g_hist g') s -> StronglySorted (fun x y => fst x < fst y) s -> 0 <= an -> 0 < ad ->
  let (p, q) := d_mul (an, ad) (d_int (g_sent g')) in
  match percentile p q 0 s with
  | Some b => (exists r, In r (first_copies [] (arrived R)) /\ delay r = b) /\
      (2^53 - 1) * (an * g_sent g') <= 2^53 * (upto b * ad) /\
      (forall r, In r (first_copies [] (arrived R)) -> delay r < b -> upto (delay r) * ad < an * g_sent g')
  | None => forall r, In r (first_copies [] (arrived R)) -> upto (delay r) * ad < an * g_sent g'
  end.
Proof.
  intros SO used g c recs g' O OK L E R delay upt LB s an ad PE SS A0 D0. destruct (call_result used g c recs SO (obtained_usable SO _ _ O) OK L) as (P & _). rewrite E in P.
  destruct P as (_ & CO & _ & SE & _ & _ & _ & HO & HI & _). change (relevant (c_first c) (upto c) skips recs) with R in *. unfold copies in HI. set (C := first_copies [] (arrived R)) in *.
  assert (LC: forall l before, (length (first_copies before l) <= length l)%nat).
  { induction l as [|x l IH]; intros before; cbn [first_copies length]; [lia|]. destruct (in_dec _ _ _); cbn [length]; [specialize (IH before)|specialize (IH (r_seq x :: before))]; lia. }
  assert (LF: forall f (l : list datarec), (length (filter f l) <= length l)%nat).
  { intros f l. induction l as [|x l IH]; cbn [filter]; [lia|]. destruct (f x); cbn [length]; lia. }
  assert (LR: (length R <= length recs)%nat) by apply LF.
  assert (LA: (length (arrived R) + length (lost R) = length R)%nat).
  { unfold arrived, lost. clear. induction R as [|x l IH]; [reflexivity|]. cbn [filter]. destruct (is_lost x); cbn [negb length]; lia. }
  assert (DA: distinct (arrived R) <= Z.of_nat (length (arrived R))).
  { unfold distinct. apply inj_le. rewrite <- (map_length r_seq). apply NoDup_incl_length; [apply NoDup_nodup|]. intros x. apply nodup_In. }
  assert (SB: 0 <= g_sent g' < 2^32) by (rewrite SE; unfold distinct in *; lia).
  assert (BC: forall b, below b s = upt b).
  { intros b. rewrite <- (below_perm b _ _ PE). apply (samples_count delay _ HO C b). exact HI. }
  assert (UB: forall b, 0 <= upt b < 2^32).
  { intros b. unfold upt, count. pose proof (LF (fun r => delay r <=? b) C). pose proof (LC (arrived R) []). fold C in H0. lia. }
  assert (IN: forall b, In b (map fst s) <-> exists r, In r C /\ delay r = b).
  { intros b. assert (X: In b (map fst s) <-> 0 < samples (g_hist g') b).
    { rewrite <- (Permutation_in' (x := b) eq_refl (Permutation_map fst PE)). destruct HO as (_ & PO). clear - PO. induction (g_hist g') as [|[y n] h IH]; cbn [samples fold_right map In fst snd]; [lia|].
      fold (samples h b). specialize (IH (fun x X => PO x (or_intror X))). pose proof (PO (y, n) (or_introl eq_refl)) as N0. cbn [snd] in N0.
      assert (S0: 0 <= samples h b). { clear - PO. induction h as [|[z m] h IH]; cbn [samples fold_right fst snd]; [lia|]. fold (samples h b).
        pose proof (PO (z, m) (or_intror (or_introl eq_refl))) as M0. cbn [snd] in M0. assert (0 <= samples h b). { apply IH. intros x [X|X]; apply PO; cbn; auto. } destruct (z =? b); lia. }
      destruct (Z.eqb_spec y b) as [->|NE]; [split; [lia|left; reflexivity]|]. rewrite Z.add_0_l, <- IH. tauto. }
    rewrite X, (HI b). unfold count. split.
    - intros G. destruct (filter _ C) as [|r l] eqn:Ef; [cbn in G; lia|]. assert (I: In r (filter (fun r => delay r =? b) C)) by (unfold delay; rewrite Ef; now left).
      apply filter_In in I. exists r. split; [tauto|]. lia.
    - intros (r & I & Er). assert (J: In r (filter (fun r => delay r =? b) C)) by (apply filter_In; split; [exact I|lia]). unfold delay in J. destruct (filter _ C); [destruct J|cbn; lia]. }
  pose proof (rounded_threshold an ad (g_sent g')) as RT. destruct (d_mul (an, ad) (d_int (g_sent g'))) as [p q].
  assert (Q0: 0 < q) by (apply (RT 0); auto; lia).
  assert (PS: Forall (fun y => 0 < snd y) s). { apply Forall_forall. intros y I. apply HO. eapply Permutation_in; [apply Permutation_sym; exact PE|exact I]. }
  pose proof (percentile_spec p q s 0 Q0 SS PS) as PP.
  destruct (percentile p q 0 s) as [b|].
  - destruct PP as (P1 & P2 & P3). split; [now apply IN|]. rewrite BC in P2. destruct (RT (upt b) A0 D0 SB (UB b)) as (_ & _ & RT2). split; [apply RT2; lia|].
    intros r I LT. specialize (P3 (delay r) (proj2 (IN _) (ex_intro _ r (conj I eq_refl))) LT). rewrite BC in P3.
    destruct (RT (upt (delay r)) A0 D0 SB (UB _)) as (_ & RT1 & _). destruct (Z.ltb_spec (upt (delay r) * ad) (an * g_sent g')) as [|GE]; [assumption|]. specialize (RT1 GE). lia.
  - intros r I. specialize (PP (delay r) (proj2 (IN _) (ex_intro _ r (conj I eq_refl)))). rewrite BC in PP.
    destruct (RT (upt (delay r)) A0 D0 SB (UB _)) as (_ & RT1 & _). destruct (Z.ltb_spec (upt (delay r) * ad) (an * g_sent g')) as [|GE]; [assumption|]. specialize (RT1 GE). lia.
Qed.

(** TTLs: if any packet was received, the minimum and maximum are the least and the greatest TTL of
    the received packets (first copies).  Missing: see [C46_ttl_refuted]. *)
Theorem C46_ttl_partial : session_ok -> forall used g c recs g', obtained used g -> call_ok c -> looks_at c recs -> do_call c g = POk g' ->
  let R := first_copies [] (arrived (counting c recs)) in
  let '(num, lo, hi) := ttl_stats (g_ttl g') in
  (R <> [] -> (exists r, In r R /\ r_ttl r = lo) /\ (exists r, In r R /\ r_ttl r = hi) /\ forall r, In r R -> lo <= r_ttl r <= hi) /\
  ((length (nodup Z.eq_dec (map r_ttl R)) < 256)%nat -> num = Z.of_nat (length (nodup Z.eq_dec (map r_ttl R)))).
Proof.
  intros SO used g c recs g' O OK L E R. destruct (call_result used g c recs SO (obtained_usable SO _ _ O) OK L) as (P & _). rewrite E in P.
  destruct P as (_ & CO & _ & _ & _ & _ & _ & _ & _ & TL & TT & _). unfold copies in TT. change (relevant (c_first c) (upto c) skips recs) with (counting c recs) in TT. change (first_copies [] (arrived (counting c recs))) with R in TT.
  assert (FR: Forall (fun r => 0 <= r_ttl r < 256) R).
  { pose proof (looks_ttl c recs OK L) as F. rewrite Forall_forall in *. intros r I. apply F. unfold R in I. revert I. generalize (@nil Z) as bf.
    assert (X: forall l bf, In r (first_copies bf l) -> In r l).
    { induction l as [|x l IH]; intros bf I; cbn [first_copies] in I; [exact I|]. destruct (in_dec _ _ _); [right; eauto|]. destruct I as [<- | I]; [now left|right; eauto]. }
    intros bf I. apply X in I. unfold arrived, counting, relevant in I. apply filter_In in I. destruct I as (I & _). apply filter_In in I. tauto. }
  set (PP := fun t => exists r, In r R /\ r_ttl r = t).
  assert (PC: forall t, 0 <= t < 256 -> (PP t <-> nth (Z.to_nat t) (g_ttl g') 0 <> 0)).
  { intros t T. rewrite (TT t T). unfold count, PP. split.
    - intros (r & I & Er). assert (J: In r (filter (fun r => r_ttl r =? t) R)) by (apply filter_In; split; [exact I|lia]). destruct (filter _ R); [destruct J|cbn; lia].
    - intros NZ. destruct (filter _ R) as [|r l] eqn:Ef; [cbn in NZ; lia|]. assert (J: In r (filter (fun r => r_ttl r =? t) R)) by (rewrite Ef; now left).
      apply filter_In in J. exists r. split; [tauto|lia]. }
  unfold ttl_stats. pose proof (ttl_min_loop (g_ttl g') 0 0 255 0 PP ltac:(lia) ltac:(lia)) as ML. pose proof (ttl_num_loop (g_ttl g') 0 0 255 0 eq_refl) as NL.
  destruct (ttl_loop 0 (g_ttl g') 0 255 0) as [[num lo] hi]. cbn [fst] in NL. split.
  - intros NE. destruct ML as (M1 & M2).
    + intros t T. rewrite Z.sub_0_r. apply PC. lia.
    + intros t (r & I & <-). rewrite Forall_forall in FR. pose proof (FR r I). lia.
    + left. split; [|auto]. intros t (r & I & <-). rewrite Forall_forall in FR. pose proof (FR r I). lia.
    + destruct R as [|r R0]; [congruence|]. exists (r_ttl r), r. split; [now left|reflexivity].
    + destruct M1 as (M1 & M3), M2 as (M2 & M4). split; [exact M1|]. split; [exact M2|]. intros r I. split; [apply M3|apply M4]; exists r; auto.
  - intros LT. rewrite NL. assert (X: length (filter (fun x => negb (x =? 0)) (g_ttl g')) = length (nodup Z.eq_dec (map r_ttl R))).
    { transitivity (length (filter (fun n => negb (nth n (g_ttl g') 0 =? 0)) (seq 0 (length (g_ttl g'))))).
      - clear. induction (g_ttl g') as [|x l IH] using rev_ind; [reflexivity|]. rewrite app_length, Nat.add_1_r, seq_S, !filter_app, !app_length. f_equal.
        + rewrite IH. f_equal. apply filter_ext_in. intros n I. apply in_seq in I. rewrite app_nth1 by lia. reflexivity.
        + cbn [filter Nat.add]. rewrite app_nth2, Nat.sub_diag by lia. cbn [nth]. destruct (negb _); reflexivity.
      - rewrite <- (map_length Z.of_nat). apply Permutation_length. apply NoDup_Permutation; [|apply NoDup_nodup|].
        + apply FinFun.Injective_map_NoDup; [intros x y; lia|]. apply NoDup_filter, seq_NoDup.
        + intros t. rewrite nodup_In, !in_map_iff. split.
          * intros (n & <- & I). apply filter_In in I. destruct I as (I & J). apply in_seq in I. destruct (proj2 (PC (Z.of_nat n) ltac:(lia))) as (r & I1 & I2); [rewrite Nat2Z.id; lia|]. exists r. auto.
          * intros (r & Er & I). assert (T: 0 <= t < 256) by (rewrite Forall_forall in FR; pose proof (FR r I); lia). exists (Z.to_nat t). split; [lia|]. apply filter_In. split; [apply in_seq; lia|].
            pose proof (proj1 (PC t T) (ex_intro _ r (conj I Er))). lia. }
    rewrite X. unfold u8. apply Z.mod_small. lia.
Qed.

(** ** C47 *)

(** A call on a used object crashes exactly if its range starts at packet 0; a call on a new object
    never does.  Missing: that it never crashes ([C47_refuted]). *)
Theorem C47_reuse_partial : session_ok -> forall used g c, obtained used g -> call_ok c -> (do_call c g = PCrash <-> used = true /\ c_first c = 0).
Proof.
  intros SO used g c O OK. destruct (looks_exist c) as (recs & L). apply (call_result used g c recs SO (obtained_usable SO _ _ O) OK L).
Qed.
(** A used object reports what a new one reports (except for the percentages of reordering, [C45_percentage_refuted]). *)
Theorem C47_same_figures : session_ok -> forall used1 used2 g1 g2 c g1' g2', obtained used1 g1 -> obtained used2 g2 -> call_ok c ->
  do_call c g1 = POk g1' -> do_call c g2 = POk g2' ->
  g_sent g1' = g_sent g2' /\ p_lost (g_pk g1') = p_lost (g_pk g2') /\ p_dups0 (g_pk g1') = p_dups0 (g_pk g2') /\
  o_n (g_ro g1') = o_n (g_ro g2') /\ (forall b, samples (g_hist g1') b = samples (g_hist g2') b) /\ g_ttl g1' = g_ttl g2' /\ g_sync g1' = g_sync g2' /\
  g_next g1' = g_next g2' /\ g_start_time g1' = g_start_time g2' /\ p_end_time (g_pk g1') = p_end_time (g_pk g2').
Proof.
  intros SO u1 u2 g1 g2 c g1' g2' O1 O2 OK E1 E2. destruct (looks_exist c) as (recs & L).
  destruct (call_result u1 g1 c recs SO (obtained_usable SO _ _ O1) OK L) as (P1 & _). rewrite E1 in P1.
  destruct (call_result u2 g2 c recs SO (obtained_usable SO _ _ O2) OK L) as (P2 & _). rewrite E2 in P2.
  destruct P1 as (_ & _ & _ & A1 & A2 & A3 & A4 & _ & A6 & A7 & A8 & A9 & A10 & A11 & A12 & _).
  destruct P2 as (_ & _ & _ & B1 & B2 & B3 & B4 & _ & B6 & B7 & B8 & B9 & B10 & B11 & B12 & _).
  split; [congruence|]. split; [congruence|]. split; [congruence|]. split.
  { destruct A4 as (_ & _ & A4 & _ & _ & _ & A5), B4 as (_ & _ & B4 & _ & _ & _ & B5). apply nth_ext with (d := 0) (d' := 0); [congruence|].
    intros i Hi. rewrite A5, B5 by lia. reflexivity. }
  split; [intros b; rewrite A6, B6; reflexivity|]. split.
  { apply nth_ext with (d := 0) (d' := 0); [congruence|]. intros i Hi. specialize (A8 (Z.of_nat i) ltac:(lia)). specialize (B8 (Z.of_nat i) ltac:(lia)). rewrite Nat2Z.id in *. congruence. }
  split; [congruence|]. destruct A10 as (_ & A10), B10 as (_ & B10). split; [congruence|]. split; congruence.
Qed.

(** ** C69 *)

(** all the records of the file, from the first one on *)
Definition whole (c : call) : call := mkCall (c_version c) (c_odata c) (c_oskip c) (c_limit c) (c_file c) (c_odata c) (c_first c) (c_last c).
(** the starting position is that of a record, or the end, and all records before it have smaller numbers than [first] *)
Definition passes_over (c : call) (recs : list datarec) (begin first : Z) : Prop :=
  exists i, (i <= length recs)%nat /\ Z.max begin (c_odata c) = c_odata c + Z.of_nat i * rec_size /\ forall r, In r (firstn i recs) -> r_seq r < first.

(** Summaries of consecutive ranges, each starting at the position the one before has left, report for
    each range what the whole file contains about it: the position may be used for the next range,
    and again for the one after it. *)
Theorem C69_consecutive : session_ok -> no_wrap start npackets delta ->
  forall used g c recs, obtained used g -> (used = true -> c_first c <> 0) -> call_ok c -> c_limit c = 0 ->
  looks_at (whole c) recs -> complete (whole c) recs -> chronicle start timeout delta recs ->
  c_odata c <= (if c_odata c <? c_oskip c then c_oskip c else Z.of_nat (length (c_file c))) < 2^32 * rec_size ->
  passes_over c recs (c_begin c) (c_first c) ->
  let R := counting c recs in
  exists g', do_call c g = POk g' /\
    g_sent g' = distinct R /\ p_lost (g_pk g') = Z.of_nat (length (lost R)) /\
    p_dups0 (g_pk g') = Z.of_nat (length (arrived R)) - distinct (arrived R) /\
    passes_over c recs (g_next g') (upto c).
Proof.
  intros SO NW used g c recs O NC OK LI L CO CH FE (i & I1 & I2 & I3) R.
  assert (OD: 0 < c_odata c) by apply OK.
  assert (RS: rec_size = reclen c /\ 0 < rec_size) by (split; [apply OK|]; destruct OK as (_ & _ & _ & -> & _); unfold reclen; destruct (_ =? 3); lia).
  assert (WW: wanted_records c = wanted_records (whole c) - Z.of_nat i /\ Z.of_nat i <= wanted_records (whole c) ).
  { unfold complete in CO. assert (W0: 0 <= wanted_records (whole c)).
    { unfold wanted_records, nrecs. cbn [whole c_limit]. rewrite LI. cbn [Z.ltb Z.compare andb]. apply Z.mod_pos_bound. lia. }
    assert (Z.of_nat i <= wanted_records (whole c)) by (clear - CO W0 I1; lia). split; [|assumption].
    unfold wanted_records, nrecs in *. cbn [whole c_version c_odata c_oskip c_limit c_file c_begin] in *. rewrite LI in *. cbn [Z.ltb Z.compare andb] in *.
    rewrite Z.max_id in *. rewrite I2. set (fe := if c_odata c <? c_oskip c then _ else _) in *. destruct RS as (_ & RS).
    rewrite !Z.quot_div_nonneg in * by lia. unfold u32 in *.
    assert (Q1: 0 <= (fe - c_odata c) / rec_size < 2^32) by (split; [apply Z.div_pos; lia|apply Z.div_lt_upper_bound; lia]).
    rewrite (Z.mod_small ((fe - c_odata c) / rec_size)) in * by exact Q1.
    assert (Z.of_nat i * rec_size <= fe - c_odata c). { pose proof (Z.mul_div_le (fe - c_odata c) rec_size RS). nia. }
    rewrite !Z.quot_div_nonneg by lia. replace (fe - (c_odata c + Z.of_nat i * rec_size)) with (fe - c_odata c + - Z.of_nat i * rec_size) by lia.
    rewrite Z.div_add by lia. set (k := (fe - c_odata c) / rec_size) in *. clearbody k. clear - Q1 H W0. rewrite !Z.mod_small by lia. lia. }
  destruct WW as (WW & WI).
  assert (L': looks_at c (skipn i recs)).
  { unfold looks_at. rewrite WW, I2. pose proof (readable_skipn _ _ _ _ _ _ _ i I1 L) as RD. unfold looks_at in RD. cbn [whole c_version c_odata c_begin c_file] in RD. rewrite Z.max_id in RD.
    change (reclen (whole c)) with (reclen c) in RD. replace (Z.to_nat (c_odata c + Z.of_nat i * rec_size)) with (Z.to_nat (c_odata c) + Z.to_nat (reclen c) * i)%nat.
    - replace (Z.to_nat (wanted_records (whole c) - Z.of_nat i)) with (Z.to_nat (wanted_records (whole c)) - i)%nat by lia. exact RD.
    - destruct RS as (<- & RS). nia. }
  assert (CO': complete c (skipn i recs)) by (unfold complete in *; rewrite skipn_length; clear - CO WW WI I1; lia).
  assert (CH': chronicle start timeout delta (skipn i recs)).
  { destruct CH as (CH1 & CH2). split.
    - intros q. specialize (CH1 q). rewrite <- (firstn_skipn i recs) in CH1. unfold lost_of, received_of in *. rewrite !filter_app, !app_length in CH1. lia.
    - intros k j r s KJ N1 N2. rewrite nth_skipn in N1, N2. eapply CH2; [|exact N1|exact N2]. lia. }
  assert (RE: counting c (skipn i recs) = R) by (apply relevant_skipn; exact I3).
  destruct (C44_counts SO NW used g c _ O NC OK L' CO' CH') as (g' & E & S1 & S2 & S3). rewrite RE in *. exists g'. repeat (split; [assumption|]).
  destruct (call_result used g c _ SO (obtained_usable SO _ _ O) OK L') as (P & _). rewrite E in P. destruct P as (_ & _ & _ & _ & _ & _ & _ & _ & _ & _ & _ & _ & (_ & NX) & _).
  assert (BF: forall r, In r (firstn i recs) -> r_seq r < upto c). { intros r I. specialize (I3 r I). destruct OK as (_ & _ & _ & _ & F & _). lia. }
  destruct (first_from (upto c) (skipn i recs)) as [j|] eqn:FF.
  - apply first_from_some in FF. destruct FF as (F1 & F2). rewrite skipn_length in F1. exists (i + j)%nat. split; [lia|]. split.
    + rewrite NX, I2. assert (0 <= Z.of_nat (i + j) * rec_size) by (apply Z.mul_nonneg_nonneg; lia). lia.
    + intros r I. destruct (In_nth_error _ _ I) as (n & N). assert (n < i + j)%nat. { assert (n < length (firstn (i + j) recs))%nat by (apply nth_error_Some; congruence). rewrite firstn_length in H. lia. }
      assert (N': nth_error recs n = Some r). { rewrite <- (firstn_skipn (i + j) recs). rewrite nth_error_app1; [exact N|]. apply nth_error_Some. congruence. }
      destruct (Nat.lt_ge_cases n i) as [LT|GE].
      * apply BF. apply nth_error_In with (n := n). rewrite <- (firstn_skipn i recs) in N'. rewrite nth_error_app1 in N'; [exact N'|]. rewrite firstn_length. lia.
      * apply F2. apply nth_error_In with (n := (n - i)%nat). assert (N2: nth_error (skipn i recs) (n - i) = Some r) by (rewrite nth_skipn; replace (i + (n - i))%nat with n by lia; exact N').
        rewrite <- (firstn_skipn j (skipn i recs)) in N2. rewrite nth_error_app1 in N2; [exact N2|]. rewrite firstn_length, skipn_length. lia.
  - exists 0%nat. split; [lia|]. split; [rewrite NX; lia|]. intros r [].
Qed.
End P.

(** ** A concrete session: 4 packets, one per second from 1001 s on, timeout 10 s; the counters of reordering have length 10 *)
Definition x_delta (n : nat) : Z := 2^32.
Definition x_rec (q : Z) (sent got : Z) (ttl : Z) : datarec := mkRec q (mkTS (secs sent) 1 1 0) (mkTS (if got =? 0 then 0 else secs got) 1 1 0) ttl.
Definition x_file (recs : list datarec) : list Z :=
  zeros 200 ++ concat (map (fun r => match encode_datarec r with Some b => b | None => [] end) recs).
(** the delay in seconds as bucket *)
Definition x_bucket (s r : timestamp) : Z := (owptime r - owptime s) / 2^32.
Definition x_call (recs : list datarec) (begin first last : Z) : call := mkCall 3 200 0 0 (x_file recs) begin first last.
Definition x_do (recs : list datarec) (begin first last : Z) (g : stats) : parsed :=
  do_call (secs 1000) (10 * 2^32) 4 25 [] x_delta 10 x_bucket (x_call recs begin first last) g.
Definition x_new : stats := create (secs 1000) [] 10.
(** 0 arrives, 1 arrives, 0 arrives again, 2 is lost, 3 arrives *)
Definition x_recs : list datarec := [x_rec 0 1001 1002 60; x_rec 1 1002 1003 61; x_rec 0 1001 1004 60; x_rec 2 1003 0 255; x_rec 3 1004 1006 59].

Lemma x_session : session_ok (secs 1000) x_delta 10 /\ no_wrap (secs 1000) 4 x_delta.
Proof.
  assert (D: forall n, 0 <= x_delta n) by (intros n; unfold x_delta; lia).
  split; [split; [vm_compute; split; [discriminate|reflexivity]|split; [exact D|lia]]|]. split; [vm_compute; discriminate|]. split; [exact D|vm_compute; reflexivity].
Qed.
Lemma x_octets : octets (x_file x_recs).
Proof. unfold octets. apply Forall_forall. intros x I. assert (A: forallb (fun x => (0 <=? x) && (x <? 256)) (x_file x_recs) = true) by (vm_compute; reflexivity). rewrite forallb_forall in A. specialize (A x I). cbv beta in A |- *. apply andb_true_iff in A. clear I; unfold is_u8; lia. Qed.
Lemma x_ok : forall begin first last, 0 <= first <= last -> last <= 4 -> call_ok 4 25 (x_call x_recs begin first last).
Proof.
  intros begin first last F L. unfold call_ok, upto, reclen. cbn [x_call c_version c_odata c_file c_first c_last]. replace (last =? 4294967295) with false by lia.
  split; [auto|]. split; [lia|]. split; [exact x_octets|]. split; [reflexivity|]. lia.
Qed.
Lemma x_looks : looks_at 25 (x_call x_recs 200 0 4) x_recs /\ complete 25 (x_call x_recs 200 0 4) x_recs.
Proof.
  split; [|vm_compute; reflexivity]. unfold looks_at. replace (Z.to_nat (wanted_records 25 (x_call x_recs 200 0 4))) with 5%nat by (vm_compute; reflexivity).
  split; [cbn; lia|]. split; [|cbn [x_recs length]; lia]. intros i r N. do 5 (destruct i as [|i]; [injection N as <-; split; [apply Nat.leb_le; vm_compute; reflexivity|vm_compute; reflexivity]|]).
  destruct i; discriminate.
Qed.
Lemma x_chronicle : chronicle (secs 1000) (10 * 2^32) x_delta x_recs.
Proof.
  split.
  - intros q. unfold lost_of, received_of. cbn [x_recs filter x_rec r_seq]. repeat match goal with |- context[is_lost ?r] => let b := eval vm_compute in (is_lost r) in change (is_lost r) with b end.
    cbn [andb negb]. rewrite !andb_true_r, !andb_false_r.
    destruct (Z.eqb_spec 0 q); [subst q; cbn; lia|]. destruct (Z.eqb_spec 1 q); [subst q; cbn; lia|]. destruct (Z.eqb_spec 2 q); [subst q; cbn; lia|]. destruct (Z.eqb_spec 3 q); cbn; lia.
  - assert (A: forallb (fun i => forallb (fun j => negb (i <=? j)%nat || match nth_error x_recs i, nth_error x_recs j with
      | Some r, Some s => if is_lost r then r_seq r <=? r_seq s else (owptime (r_recv r) - 10 * 2^32) mod 2^64 <=? sched_stamp (secs 1000) x_delta (r_seq s) | _, _ => true end) (seq 0 5)) (seq 0 5) = true)
      by (vm_compute; reflexivity).
    intros i j r s IJ N1 N2. rewrite forallb_forall in A.
    assert (i < 5)%nat by (change 5%nat with (length x_recs); apply nth_error_Some; congruence). assert (j < 5)%nat by (change 5%nat with (length x_recs); apply nth_error_Some; congruence).
    specialize (A i ltac:(apply in_seq; lia)). rewrite forallb_forall in A. specialize (A j ltac:(apply in_seq; lia)). rewrite N1, N2 in A.
    replace (i <=? j)%nat with true in A by lia. cbn [negb orb] in A. destruct (is_lost r); lia.
Qed.
(** 4 packets sent, 1 lost, 1 duplicate *)
Example C44_example : exists g, x_do x_recs 200 0 4 x_new = POk g /\ g_sent g = 4 /\ p_lost (g_pk g) = 1 /\ p_dups0 (g_pk g) = 1 /\ g_sync g = true /\
  distinct x_recs = 4 /\ ttl_stats (g_ttl g) = (3, 59, 61).
Proof. eexists. split; [vm_compute; reflexivity|]. vm_compute. auto 10. Qed.
(** the hypotheses of the theorem on receivers hold for the session of Props_Receiver *)
Example C44_receiver_example : chronicle (secs 1000) (2^32) (fun _ => 2^32) (recs_of (rx_demo (Some ((1000, 0), 5, 1)) None demo_rx)).
Proof.
  apply (C44_receiver (secs 1000) (2^32) 3 (fun _ => 2^32)); [exact demo_session|exact demo_era| |lia|exact (fun b _ => clip_octets [] b)|exact C36_hypotheses|].
  - split; [vm_compute; discriminate|]. split; [lia|vm_compute; reflexivity].
  - intros t er sy [E|[E|[E|[E|[]]]]]; injection E as <- _ _; cbn [fst]; lia.
Qed.
(** two summaries on the same object, the second from the position the first has left: record 3 (of packet 2) *)
Example C69_example : exists g1 g2, x_do x_recs 0 0 2 x_new = POk g1 /\ g_sent g1 = 2 /\ p_dups0 (g_pk g1) = 1 /\ g_next g1 = 275 /\
  x_do x_recs 275 2 4 g1 = POk g2 /\ g_sent g2 = 2 /\ p_lost (g_pk g2) = 1 /\ g_next g2 = 0.
Proof. eexists. eexists. split; [vm_compute; reflexivity|]. split; [vm_compute; reflexivity|]. split; [vm_compute; reflexivity|]. split; [vm_compute; reflexivity|]. split; [vm_compute; reflexivity|]. vm_compute. auto. Qed.
Example C69_hypotheses : obtained (secs 1000) (10 * 2^32) 4 25 [] x_delta 10 x_bucket false x_new /\ call_ok 4 25 (x_call x_recs 0 0 2) /\
  passes_over 25 (x_call x_recs 0 0 2) x_recs 0 0 /\ looks_at 25 (whole (x_call x_recs 0 0 2)) x_recs.
Proof. split; [constructor|]. split; [apply x_ok; lia|]. split; [exists 0%nat; cbn; split; [lia|]; split; [reflexivity|intros r []]|]. exact (proj1 x_looks). Qed.

(** ** Refutations *)

(** C45 is false with duplicates: no first copy arrives late here, but 1-reordering is reported. *)
Theorem C45_refuted : exists recs g, chronicle (secs 1000) (10 * 2^32) x_delta recs /\ x_do recs 200 0 4 x_new = POk g /\
  looks_at 25 (x_call recs 200 0 4) recs /\
  nth 0 (o_n (g_ro g)) 0 = 1 /\ reordered 1 (map r_seq (first_copies [] (arrived (relevant 0 4 [] recs)))) = 0.
Proof.
  exists x_recs. eexists. split; [exact x_chronicle|]. split; [vm_compute; reflexivity|]. split; [exact (proj1 x_looks)|]. split; vm_compute; reflexivity.
Qed.
(** The percentage of reordered packets is computed with the number of packets of all the summaries
    made with the object: here 1 of 1 received packet of the range is shown as 1 of 4. *)
Theorem C45_percentage_refuted : exists g1 g2, x_do x_recs 200 0 2 x_new = POk g1 /\ x_do x_recs 200 3 4 g1 = POk g2 /\
  Z.of_nat (length (arrived (relevant 3 4 [] x_recs))) = 1 /\ o_num (g_ro g2) = 4.
Proof. eexists. eexists. split; [vm_compute; reflexivity|]. split; [vm_compute; reflexivity|]. split; vm_compute; reflexivity. Qed.

(** C46: the product of fraction and number of packets is rounded.  The fraction here is the least
    double greater than 1/3, 3 packets are sent, and a bucket with 1 of them is reported. *)
Theorem C46_refuted : exists an ad sent s b,
  0 < ad /\ (2^53 < 3 * an) /\ ad = 2^54 /\ let (p, q) := d_mul (an, ad) (d_int sent) in
  percentile p q 0 s = Some b /\ samples s b * ad < an * sent /\ fold_right Z.add 0 (map snd s) = sent /\ forall x, In x s -> b <= fst x.
Proof.
  exists (6004799503160662), (2^54), 3, [(10, 1); (20, 1); (30, 1)], 10. split; [lia|]. split; [lia|]. split; [reflexivity|].
  destruct (d_mul _ _) as [p q] eqn:E. vm_compute in E. injection E as <- <-. split; [vm_compute; reflexivity|]. split; [vm_compute; reflexivity|]. split; [reflexivity|].
  intros x [<- |[<- |[<- |[]]]]; cbn; lia.
Qed.
(** C46: with all the 256 possible values, none is reported: their number is kept in 8 bits. *)
Definition t_recs : list datarec := map (fun n => x_rec (Z.of_nat n) (1001 + Z.of_nat n) (1002 + Z.of_nat n) (Z.of_nat n)) (seq 0 256).
Definition t_result : parsed := do_call (secs 1000) (10 * 2^32) 256 25 [] x_delta 10 x_bucket (x_call t_recs 200 0 256) x_new.
Definition t_check (p : parsed) : bool :=
  match p with POk g => forallb (fun x => x =? 1) (g_ttl g) && (length (g_ttl g) =? 256)%nat && (fst (fst (ttl_stats (g_ttl g))) =? 0) | _ => false end.
Lemma t_checked : t_check t_result = true.
Proof. vm_compute. reflexivity. Qed.
Lemma t_check_spec : forall p, t_check p = true -> exists g, p = POk g /\ Forall (fun x => x = 1) (g_ttl g) /\ length (g_ttl g) = 256%nat /\ fst (fst (ttl_stats (g_ttl g))) = 0.
Proof.
  intros [g|g|] A; [|discriminate|discriminate]. unfold t_check in A. exists g. split; [reflexivity|].
  apply andb_true_iff in A. destruct A as (A & A3). apply andb_true_iff in A. destruct A as (A1 & A2). split; [|split; lia].
  apply Forall_forall. intros x I. rewrite forallb_forall in A1. specialize (A1 x I). cbv beta in A1. clear I. lia.
Qed.
Theorem C46_ttl_refuted : exists g,
  t_result = POk g /\ Forall (fun x => x = 1) (g_ttl g) /\ length (g_ttl g) = 256%nat /\ fst (fst (ttl_stats (g_ttl g))) = 0.
Proof. exact (t_check_spec t_result t_checked). Qed.

(** C47 is false: the second summary of the whole session on the same object uses a null pointer. *)
Theorem C47_refuted : exists g, x_do x_recs 200 0 4 x_new = POk g /\ x_do x_recs 200 0 4 g = PCrash.
Proof. eexists. split; [vm_compute; reflexivity|]. vm_compute. reflexivity. Qed.

Print Assumptions C44_any_file.
Print Assumptions C44_counts.
Print Assumptions C44_all_packets.
Print Assumptions C44_receiver.
Print Assumptions C45_reordering_partial.
Print Assumptions C45_stops.
Print Assumptions C45_refuted.
Print Assumptions C45_percentage_refuted.
Print Assumptions C46_percentile_partial.
Print Assumptions C46_ttl_partial.
Print Assumptions C46_refuted.
Print Assumptions C46_ttl_refuted.
Print Assumptions C47_reuse_partial.
Print Assumptions C47_same_figures.
Print Assumptions C47_refuted.
Print Assumptions C69_consecutive.
