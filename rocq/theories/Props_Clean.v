(** C31, C32, C68: the clean-up of session files. *)
From Coq Require Import ZArith List Bool Lia.
From Verif Require Import Base Arith_Model Time_Model Wire_Model Wire_Spec File_Model Double Clean_Model Clean_Spec Clean_Proofs Clean_Search Clean_Result Clean_Broken.
Import ListNotations.
Open Scope Z_scope.

(** the next sequence number: a sender that sent everything may say so with the largest number *)
Definition next_number (npackets next : Z) : Z := if next =? 4294967295 then npackets else next.

(** the session: times do not go back beyond the epoch, and the schedule fits into the era *)
Definition session_times (start timeout stop : Z) (delta : nat -> Z) (next : Z) : Prop :=
  (0 <= timeout /\ 2 * timeout <= start /\ 2 * timeout <= stop /\ stop < 2^64 /\ start < 2^64) /\ (forall i, 0 <= delta i) /\ 0 <= next /\
  match Z.to_nat next with O => start | S k => scheduled start delta k end < 2^64.

(** the records of a session: in order, plausible, with their time within the era *)
Definition session_records (start timeout : Z) (delta : nat -> Z) (items : list item) : Prop :=
  Forall (fun x => 0 <= settled timeout (snd x) < 2^64) items /\ in_order timeout items /\
  Forall (fun x => plausible_rec start timeout delta (snd x)) items /\ Forall (fun x => 0 <= r_seq (snd x)) items.

(** C31.  If what is written to the temporary stream reaches its file and the clean-up succeeds, the file holds exactly the
    records that are to be kept, in their original order, and their count; every packet that was received has been sent.
    Missing: records of packets never seen are added by the receiver (C36), not here, and the stream is not
    flushed (below). *)
Theorem C31_kept_partial : forall f header items start timeout npackets delta next stop fuel f' maxr off,
  recorded f header items -> session_times start timeout stop delta (next_number npackets next) -> session_records start timeout delta items ->
  clean_data_recs (fun k => k) fuel f start timeout npackets delta next stop = CleanOK f' maxr off ->
  exists header', f' = header' ++ concat (map fst (filter (fun x => keep (next_number npackets next) timeout stop (snd x)) items)) /\
    with_count (length (filter (fun x => keep (next_number npackets next) timeout stop (snd x)) items)) header header' /\
    (forall x, In x items -> ~ lost (snd x) -> r_seq (snd x) < next_number npackets next).
Proof.
  intros f header items start timeout npackets delta next stop fuel f' maxr off R (T & D & N & S) (O & I & P & Q) C.
  exact (clean_ok R start timeout npackets delta next stop O T D S I P Q N fuel f' maxr off C).
Qed.
Print Assumptions C31_kept_partial.

(** C32.  If every record settled at or after the threshold (twice the timeout before the stop, and before the last packet)
    was settled clearly after it - by a millionth of the time since the first record - the clean-up ends, within as many steps as there
    are records, and it succeeds exactly if every packet received has been sent. *)
Definition threshold_time (start timeout stop : Z) (delta : nat -> Z) (next : Z) : Z :=
  Z.min (match Z.to_nat next with O => start | S k => scheduled start delta k end) stop - 2 * timeout.
Definition clearly_after (t0 thresh t : Z) : Prop := t - t0 <= 2^20 * (t - thresh).
Theorem C32_ends_partial : forall f header items start timeout npackets delta next stop fuel t0,
  recorded f header items -> session_times start timeout stop delta (next_number npackets next) -> session_records start timeout delta items ->
  let thresh := threshold_time start timeout stop delta (next_number npackets next) in
  (forall x, In x items -> t0 <= settled timeout (snd x)) ->
  (forall x, In x items -> thresh <= settled timeout (snd x) -> clearly_after t0 thresh (settled timeout (snd x))) ->
  clearly_after t0 thresh stop -> (length items <= fuel)%nat -> next_number npackets next <= npackets ->
  (forall x, In x items -> ~ lost (snd x) -> r_seq (snd x) < next_number npackets next) <->
  exists f' maxr off, clean_data_recs (fun k => k) fuel f start timeout npackets delta next stop = CleanOK f' maxr off.
Proof.
  intros f header items start timeout npackets delta next stop fuel t0 R ST SR thresh L A B FU NP.
  destruct ST as (T & D & N & S). destruct SR as (O & I & P & Q). split.
  - intros H. exact (clean_total R start timeout npackets delta next stop O T D S fuel t0 L A B FU NP H).
  - intros (f' & maxr & off & C).
    destruct (clean_ok R start timeout npackets delta next stop O T D S I P Q N fuel f' maxr off C) as (_ & _ & _ & X). exact X.
Qed.
Print Assumptions C32_ends_partial.

(** ** Examples: a session of 10 packets, one every second from 1001 s on, timeout 2 s, stopped at 1010 s *)
Definition sec (s : Z) : Z := s * 4294967296.
Definition stamp (t : Z) : timestamp := mkTS t 0 1 0.
Definition got (q : Z) : datarec := mkRec q (stamp (sec (1001 + q))) (stamp (sec (1001 + q) + sec 1 / 4)) 60.
Definition gone (q : Z) : datarec := mkRec q (stamp (sec (1001 + q))) (stamp 0) 255.
Definition stored (r : datarec) : item :=
  let b := match encode_datarec r with Some b => b | None => [] end in
  (b, match decode_datarec 3 b with Some r => r | None => r end).
Definition head_168 : list Z := [79; 119; 65; 0] ++ be_enc 4 3 ++ zeros 24 ++ be_enc 8 168 ++ zeros 128.
Definition the_file (l : list datarec) : list Z := head_168 ++ concat (map fst (map stored l)).
Definition every_second (i : nat) : Z := sec 1.
Definition clean_10 (flushed : nat -> nat) (fuel : nat) (l : list datarec) : cleaned_up :=
  clean_data_recs flushed fuel (the_file l) (sec 1000) (sec 2) 10 every_second 4294967295 (sec 1010).

Ltac check_recorded := split; [reflexivity|]; repeat (split; [vm_compute; reflexivity|]); split; [vm_compute; lia|]; split; [vm_compute; reflexivity|];
  split; [|vm_compute; reflexivity]; repeat (apply Forall_cons; [split; vm_compute; reflexivity|]); apply Forall_nil.
Lemma example_times : session_times (sec 1000) (sec 2) (sec 1010) every_second (next_number 10 4294967295).
Proof. split; [vm_compute; intuition congruence|]. split; [intros i; vm_compute; discriminate|]. split; vm_compute; [discriminate|reflexivity]. Qed.
Ltac check_records := split; [|split; [|split]];
  [repeat (apply Forall_cons; [split; [vm_compute; discriminate|vm_compute; reflexivity]|]); apply Forall_nil
  |vm_compute; intuition congruence
  |repeat (apply Forall_cons; [split; [intros H; vm_compute in H |- *; first [discriminate|reflexivity]|intros H; vm_compute in H |- *; first [exfalso; apply H; reflexivity|split; discriminate]]|]); apply Forall_nil
  |repeat (apply Forall_cons; [vm_compute; discriminate|]); apply Forall_nil].


Definition run_1 : list datarec := [got 0; got 1; got 2; got 3; got 5; got 6; got 8; gone 7].
Lemma run_1_recorded : recorded (the_file run_1) head_168 (map stored run_1).
Proof. check_recorded. Qed.
Lemma run_1_records : session_records (sec 1000) (sec 2) every_second (map stored run_1).
Proof. check_records. Qed.
(** packet 8 was sent less than the timeout before the stop: dropped; packet 7, lost, is kept *)
Example C31_example : recorded (the_file run_1) head_168 (map stored run_1) /\ session_times (sec 1000) (sec 2) (sec 1010) every_second (next_number 10 4294967295) /\
  session_records (sec 1000) (sec 2) every_second (map stored run_1) /\
  exists m o, clean_10 (fun k => k) 100 run_1 =
    CleanOK (put 20 (be_enc 4 7) head_168 ++ concat (map fst (map stored [got 0; got 1; got 2; got 3; got 5; got 6; gone 7]))) m o.
Proof. split; [exact run_1_recorded|]. split; [exact example_times|]. split; [exact run_1_records|]. vm_compute. eauto. Qed.

Example C32_example : let thresh := threshold_time (sec 1000) (sec 2) (sec 1010) every_second 10 in
  (forall x, In x (map stored run_1) -> sec 1001 <= settled (sec 2) (snd x)) /\
  (forall x, In x (map stored run_1) -> thresh <= settled (sec 2) (snd x) -> clearly_after (sec 1001) thresh (settled (sec 2) (snd x))) /\
  clearly_after (sec 1001) thresh (sec 1010) /\ (forall x, In x (map stored run_1) -> ~ lost (snd x) -> r_seq (snd x) < 10).
Proof.
  split; [|split; [|split]].
  - intros x X; repeat (destruct X as [<-|X]; [vm_compute; discriminate|]); destruct X.
  - intros x X; repeat (destruct X as [<-|X]; [vm_compute; intros H; first [exfalso; apply H; reflexivity|discriminate]|]); destruct X.
  - vm_compute. discriminate.
  - intros x X; repeat (destruct X as [<-|X]; [vm_compute; intros _; reflexivity|]); destruct X.
Qed.

(** C31 refuted: the records kept behind the first dropped one are written to a stream that is never flushed before
    its file is copied.  With a buffer of 4096 octets, the record of packet 7 is missing while the count says it is there. *)
Theorem C31_unflushed_refuted : exists f header items f' m o,
  recorded f header items /\ session_times (sec 1000) (sec 2) (sec 1010) every_second (next_number 10 4294967295) /\
  session_records (sec 1000) (sec 2) every_second items /\
  clean_data_recs (fun k => (4096 * (k / 4096))%nat) 100 f (sec 1000) (sec 2) 10 every_second 4294967295 (sec 1010) = CleanOK f' m o /\
  field f' 20 4 = 7 /\ Z.of_nat (length f') = Z.of_nat (length header) + 25 * 6.
Proof.
  exists (the_file run_1), head_168, (map stored run_1).
  assert (X: exists m o, clean_10 (fun k => (4096 * (k / 4096))%nat) 100 run_1 =
    CleanOK (put 20 (be_enc 4 7) head_168 ++ concat (map fst (map stored [got 0; got 1; got 2; got 3; got 5; got 6]))) m o) by (vm_compute; eauto).
  destruct X as (m & o & X). eexists _, m, o. split; [exact run_1_recorded|]. split; [exact example_times|]. split; [exact run_1_records|]. split; [exact X|].
  split; vm_compute; reflexivity.
Qed.
Print Assumptions C31_unflushed_refuted.

(** C32 refuted: a record settled exactly at the threshold (packet 3, lost) makes the search look at the same record for ever. *)
Definition run_2 : list datarec := [got 0; got 1; got 2; got 4; gone 3; got 5; got 6; got 7; got 8].
Lemma run_2_recorded : recorded (the_file run_2) head_168 (map stored run_2).
Proof. check_recorded. Qed.
Lemma run_2_records : session_records (sec 1000) (sec 2) every_second (map stored run_2).
Proof. check_records. Qed.

Lemma search_stuck : forall h f timeout thresh lowI lowR highI, 1 < u32 (highI - lowI) ->
  interpolate thresh lowR thresh lowI highI = Some highI ->
  (exists b r, read_rec h (ih_odata h + u32 (highI * ih_recsize h)) f = Some (b, r) /\ rec_time timeout r = thresh) ->
  forall fuel, search fuel h f timeout thresh lowI lowR highI thresh = FRunning.
Proof.
  intros h f timeout thresh lowI lowR highI G I (b & r & RR & RT). induction fuel as [|fuel IH]; [reflexivity|]. cbn [search].
  destruct (Z.ltb_spec 1 (u32 (highI - lowI))); [|lia]. rewrite I, RR, RT. rewrite Z.ltb_irrefl. exact IH.
Qed.

Theorem C32_refuted : exists f header items,
  recorded f header items /\ session_times (sec 1000) (sec 2) (sec 1010) every_second (next_number 10 4294967295) /\
  session_records (sec 1000) (sec 2) every_second items /\
  forall flushed fuel, clean_data_recs flushed fuel f (sec 1000) (sec 2) 10 every_second 4294967295 (sec 1010) = CleanRunning.
Proof.
  exists (the_file run_2), head_168, (map stored run_2). split; [exact run_2_recorded|]. split; [exact example_times|]. split; [exact run_2_records|].
  intros flushed fuel. unfold clean_data_recs.
  destruct (read_initial (the_file run_2)) as [h|] eqn:I; [|vm_compute in I; discriminate].
  assert (H: h = mkIH 3 25 168 0 0 0 0 0 168 393 true) by (vm_compute in I; congruence). rewrite H.
  cbn [ih_size ih_odata ih_recsize]. change (negb (Z.rem (393 - 168) 25 =? 0)) with false. cbv iota.
  change (u32 (Z.quot (393 - 168) 25)) with 9. change (9 =? 0) with false. cbv iota.
  change (4294967295 =? 4294967295) with true. cbv iota. change (10 <? 10) with false. cbv iota.
  assert (FS: find_start fuel (mkIH 3 25 168 0 0 0 0 0 168 393 true) (the_file run_2) (sec 1000) (sec 2) every_second 10 (sec 1010) 9 = FRunning).
  { unfold find_start. cbv zeta.
    assert (TH: OWPNum64Sub (if sum_delays (sec 1000) every_second (Z.to_nat 10) <? sec 1010 then sum_delays (sec 1000) every_second (Z.to_nat 10) else sec 1010)
                 (OWPNum64Mult (sec 2) (OWPULongToNum64 2)) = sec 1006) by (vm_compute; reflexivity).
    rewrite TH.
    assert (R0: read_rec (mkIH 3 25 168 0 0 0 0 0 168 393 true) (ih_odata (mkIH 3 25 168 0 0 0 0 0 168 393 true)) (the_file run_2) = Some (stored (got 0))) by (vm_compute; reflexivity).
    rewrite R0. assert (S0: stored (got 0) = (fst (stored (got 0)), snd (stored (got 0)))) by (vm_compute; reflexivity). rewrite S0.
    assert (T0: rec_time (sec 2) (snd (stored (got 0))) = sec 1001 + sec 1 / 4) by (vm_compute; reflexivity). rewrite T0.
    change (sec 1001 + sec 1 / 4 <? sec 1006) with true. cbv iota.
    destruct fuel as [|fuel]; [reflexivity|]. cbn [search]. change (1 <? u32 (9 - 0)) with true. cbv iota.
    assert (I1: interpolate (sec 1006) (sec 1001 + sec 1 / 4) (sec 1010) 0 9 = Some 4) by (vm_compute; reflexivity). rewrite I1.
    assert (R4: read_rec (mkIH 3 25 168 0 0 0 0 0 168 393 true) (ih_odata (mkIH 3 25 168 0 0 0 0 0 168 393 true) + u32 (4 * ih_recsize (mkIH 3 25 168 0 0 0 0 0 168 393 true))) (the_file run_2)
              = Some (fst (stored (gone 3)), snd (stored (gone 3)))) by (vm_compute; reflexivity). rewrite R4.
    assert (T4: rec_time (sec 2) (snd (stored (gone 3))) = sec 1006) by (vm_compute; reflexivity). rewrite T4. rewrite Z.ltb_irrefl.
    apply search_stuck; [vm_compute; reflexivity|vm_compute; reflexivity|].
    eexists _, _. split; [exact R4|exact T4]. }
  rewrite FS. reflexivity.
Qed.
Print Assumptions C32_refuted.

(** C32 refuted: with timeout 0 the threshold is the stop time itself, and the search runs past the last record. *)
Definition run_3 : list datarec := [got 0; got 1; got 2].
Lemma run_3_recorded : recorded (the_file run_3) head_168 (map stored run_3).
Proof. check_recorded. Qed.
Theorem C32_timeout_0_refuted : exists f header items,
  recorded f header items /\ session_times (sec 1000) 0 (sec 1004) every_second (next_number 10 4294967295) /\
  Forall (fun x => 0 <= settled 0 (snd x) < 2^64) items /\ in_order 0 items /\ (forall x, In x items -> keep 10 0 (sec 1004) (snd x) = true) /\
  clean_data_recs (fun k => k) 100 f (sec 1000) 0 10 every_second 4294967295 (sec 1004) = CleanFail.
Proof.
  exists (the_file run_3), head_168, (map stored run_3). split; [exact run_3_recorded|].
  split; [split; [vm_compute; intuition congruence|]; split; [intros i; vm_compute; discriminate|]; split; vm_compute; [discriminate|reflexivity]|].
  split; [repeat (apply Forall_cons; [split; [vm_compute; discriminate|vm_compute; reflexivity]|]); apply Forall_nil|].
  split; [vm_compute; intuition congruence|]. split; [|vm_compute; reflexivity].
  intros x X; repeat (destruct X as [<-|X]; [vm_compute; reflexivity|]); destruct X.
Qed.
Print Assumptions C32_timeout_0_refuted.

(** C68: after a broken control connection, the records above the last packet received are to be removed.  What holds: the file is
    marked incomplete, and it has the records of C31 - all of them, unless the largest number kept is 0. *)
Theorem C68_broken_partial : forall f header items start timeout npackets delta stop fuel f1 maxr off,
  recorded f header items -> session_times start timeout stop delta npackets -> session_records start timeout delta items ->
  clean_data_recs (fun k => k) fuel f start timeout npackets delta 4294967295 stop = CleanOK f1 maxr off -> maxr <> 0 ->
  exists f2 header2, clean_up_session (fun k => k) fuel f start timeout npackets delta stop = CleanOK f2 maxr off /\
    f2 = header2 ++ concat (map fst (filter (fun x => keep npackets timeout stop (snd x)) items)) /\
    length header2 = length header /\ field header2 20 4 = Z.of_nat (length (filter (fun x => keep npackets timeout stop (snd x)) items)) /\ field header2 8 4 = 2.
Proof.
  intros f header items start timeout npackets delta stop fuel f1 maxr off R (T & D & N & S) (O & I & P & Q) C M.
  exact (broken_same R start timeout npackets delta 4294967295 stop O T D S I P Q N fuel f1 maxr off eq_refl C M).
Qed.
Print Assumptions C68_broken_partial.

(** as receivers write records: once a packet was given up, no smaller number is recorded as received *)
Definition written_in_sequence (l : list item) : Prop :=
  forall a x b y c, l = a ++ x :: b ++ y :: c -> lost (snd x) -> ~ lost (snd y) -> r_seq (snd x) < r_seq (snd y).
(** C68 where the largest number kept near the end is 0.  Here the records above the last packet received are removed: if nothing that
    is to be kept was received, no record remains; otherwise those up to the highest number received remain, and the file is marked
    incomplete.  The records are assumed to be as receivers write them: once a packet was given up, no packet with a smaller
    number is recorded as received. *)
Theorem C68_guesses_partial : forall f header items start timeout npackets delta stop fuel f1 off,
  recorded f header items -> session_times start timeout stop delta npackets -> session_records start timeout delta items ->
  clean_data_recs (fun k => k) fuel f start timeout npackets delta 4294967295 stop = CleanOK f1 0 off ->
  let kept := filter (fun x => keep npackets timeout stop (snd x)) items in
  written_in_sequence kept ->
  (Forall (fun x => lost (snd x)) kept -> exists header2,
     clean_up_session (fun k => k) fuel f start timeout npackets delta stop = CleanOK header2 0 off /\ with_count 0 header header2) /\
  (forall y, In y kept -> ~ lost (snd y) -> (forall z, In z kept -> ~ lost (snd z) -> r_seq (snd z) <= r_seq (snd y)) ->
     exists f2 header2 off2, clean_up_session (fun k => k) fuel f start timeout npackets delta stop = CleanOK f2 (r_seq (snd y)) off2 /\
       f2 = header2 ++ concat (map fst (filter (fun x => r_seq (snd x) <=? r_seq (snd y)) kept)) /\ length header2 = length header /\
       field header2 20 4 = Z.of_nat (length (filter (fun x => r_seq (snd x) <=? r_seq (snd y)) kept)) /\ field header2 8 4 = 2).
Proof.
  intros f header items start timeout npackets delta stop fuel f1 off R (T & D & N & S) (O & I & P & Q) C kp SQ.
  destruct (clean_ok R start timeout npackets delta 4294967295 stop O T D S I P Q N fuel f1 0 off C) as (hd' & F & W & _).
  change (next' npackets 4294967295) with npackets in F, W.
  assert (IO: Forall item_ok items) by apply R.
  exact (broken_zero f header items start timeout npackets delta stop fuel f1 off hd' kp R C F W (Forall_filter' _ _ _ IO) (filter_len _ _) SQ (Forall_filter' _ _ _ Q)).
Qed.
Print Assumptions C68_guesses_partial.
(** packet 1 was sent less than the timeout before the end; nothing but packet 0 is kept *)
Definition run_5 : list datarec := [got 0; got 1].
Example C68_guesses_example : recorded (the_file run_5) head_168 (map stored run_5) /\
  session_times (sec 1000) (sec 2) (sec 1003 + sec 1 / 2) every_second 10 /\ session_records (sec 1000) (sec 2) every_second (map stored run_5) /\
  (exists f1 off, clean_data_recs (fun k => k) 100 (the_file run_5) (sec 1000) (sec 2) 10 every_second 4294967295 (sec 1003 + sec 1 / 2) = CleanOK f1 0 off) /\
  let kept := filter (fun x => keep 10 (sec 2) (sec 1003 + sec 1 / 2) (snd x)) (map stored run_5) in
  kept = [stored (got 0)] /\ written_in_sequence kept.
Proof.
  split; [check_recorded|].
  split; [split; [vm_compute; intuition congruence|]; split; [intros i; vm_compute; discriminate|]; split; vm_compute; [discriminate|reflexivity]|].
  split; [check_records|]. split; [vm_compute; eauto|]. cbv zeta. 
  assert (K: filter (fun x => keep 10 (sec 2) (sec 1003 + sec 1 / 2) (snd x)) (map stored run_5) = [stored (got 0)]) by (vm_compute; reflexivity).
  split; [exact K|]. rewrite K. intros a x b y c E. apply (f_equal (@length item)) in E. rewrite app_length in E. cbn [length] in E. rewrite app_length in E. cbn [length] in E. lia.
Qed.

(** the sender died after packet 3; packets 4 and 5 were given up by the receiver, and stay *)
Definition run_4 : list datarec := [got 0; got 1; got 2; got 3; gone 4; gone 5].
Lemma run_4_recorded : recorded (the_file run_4) head_168 (map stored run_4).
Proof. check_recorded. Qed.
Lemma run_4_records : session_records (sec 1000) (sec 2) every_second (map stored run_4).
Proof. check_records. Qed.
Theorem C68_refuted : exists f header items f2 header2 items2 m o,
  recorded f header items /\ session_times (sec 1000) (sec 2) (sec 1009) every_second 10 /\ session_records (sec 1000) (sec 2) every_second items /\
  clean_up_session (fun k => k) 100 f (sec 1000) (sec 2) 10 every_second (sec 1009) = CleanOK f2 m o /\
  f2 = header2 ++ concat (map fst items2) /\ length header2 = length header /\ Forall item_ok items2 /\
  exists x, In x items2 /\ lost (snd x) /\ forall y, In y items2 -> ~ lost (snd y) -> r_seq (snd y) < r_seq (snd x).
Proof.
  exists (the_file run_4), head_168, (map stored run_4).
  assert (X: exists m o, clean_up_session (fun k => k) 100 (the_file run_4) (sec 1000) (sec 2) 10 every_second (sec 1009) =
    CleanOK (put 8 (be_enc 4 2) (put 20 (be_enc 4 6) head_168) ++ concat (map fst (map stored run_4))) m o) by (vm_compute; eauto).
  destruct X as (m & o & X). exists (put 8 (be_enc 4 2) (put 20 (be_enc 4 6) head_168) ++ concat (map fst (map stored run_4))), (put 8 (be_enc 4 2) (put 20 (be_enc 4 6) head_168)), (map stored run_4), m, o.
  split; [exact run_4_recorded|].
  split; [split; [vm_compute; intuition congruence|]; split; [intros i; vm_compute; discriminate|]; split; vm_compute; [discriminate|reflexivity]|].
  split; [exact run_4_records|]. split; [exact X|]. split; [reflexivity|]. split; [vm_compute; reflexivity|]. split; [apply run_4_recorded|].
  exists (stored (gone 5)). split; [cbn [run_4 map In]; tauto|]. split; [vm_compute; reflexivity|].
  intros y Y; repeat (destruct Y as [<-|Y]; [intros H; vm_compute in H |- *; first [reflexivity|exfalso; apply H; reflexivity]|]); destruct Y.
Qed.
Print Assumptions C68_refuted.
