(** Property theorems about the reports: C113 (samples), C114 (percentiles), C115 (reordering), C116 (first and last time), C117 (units), C118 (delays).
    Vocabulary: Report_Spec.v, Stats_Spec.v. *)
From Coq Require Import String.
From Coq Require Import ZArith List Bool QArith Lia ZifyBool ZifyNat Sorted.
From Verif Require Import Base BaseLemmas Double Double_Proofs Single Single_Proofs Time_Model Wire_Model Stats_Model Stats_Spec Stats_Report Props_Receiver Props_Stats
  Options_Model Options_Spec Options_Proofs Clean_Search Report_Model Report_Spec Report_Proofs.
Import ListNotations.
Open Scope Z_scope.

(** ** C113: the samples of a session cover every packet once *)

(** One summary for the session if no size is given or the session is not larger; otherwise summaries of pieces of the given size, the last
    may be smaller, and every packet is in one of them.  Missing: sizes whose multiples reach 2^32, refuted below *)
Theorem C113_samples_partial : forall n npackets, 0 <= n < 2^32 -> 1 <= npackets < 2^32 -> n * ((npackets + n - 1) / n) < 2^32 ->
  exists l, summarized n npackets = (l, true) /\ pieces (if n =? 0 then npackets else n) 0 npackets l /\
    forall q, 0 <= q < npackets -> covers q l = 1%nat.
Proof.
  intros n np N P W. destruct (Z_le_gt_dec np n) as [L|G]; [|destruct (Z.eq_dec n 0) as [->|NZ]].
  - exists [(0, np)]. unfold summarized, num_sum. replace ((n =? 0) || (np <=? n)) with true by lia. change (0 =? 0) with true. cbv iota.
    unfold parse_range. change (4294967295 =? 4294967295) with true. cbv iota zeta. replace ((np <? 0) || (np <? np)) with false by lia.
    split; [reflexivity|]. assert (X : pieces (if n =? 0 then np else n) 0 np [(0, np)]) by (cbn [pieces]; destruct (n =? 0); lia).
    split; [exact X|]. intros q Q. apply (pieces_covers _ _ _ _ q) in X; [apply X; exact Q|]. destruct (n =? 0) eqn:?; lia.
  - exists [(0, np)]. unfold summarized, num_sum. cbn [Z.eqb orb]. cbv iota.
    unfold parse_range. change (4294967295 =? 4294967295) with true. cbv iota zeta. replace ((np <? 0) || (np <? np)) with false by lia.
    split; [reflexivity|]. assert (X : pieces np 0 np [(0, np)]) by (cbn [pieces]; lia).
    split; [exact X|]. intros q Q. apply (pieces_covers _ _ _ _ q) in X; [apply X; exact Q|lia].
  - destruct (num_sum_ceil n np ltac:(lia)) as (E & E2 & E3). unfold summarized. replace (num_sum n np =? 0) with false by lia.
    assert (K : Z.of_nat (Z.to_nat (num_sum n np)) = num_sum n np) by lia.
    assert (W' : n * num_sum n np < 2^32) by (rewrite E; exact W).
    destruct (samples_pieces n np (Z.to_nat (num_sum n np)) 0 ltac:(lia) ltac:(lia) ltac:(lia) ltac:(lia)) as (l & S & Q); [rewrite K, Z.add_0_l; exact E3|rewrite K, Z.add_0_l; exact W'|].
    exists l. rewrite Z.mul_0_r in Q. replace (n =? 0) with false by lia. split; [exact S|]. split; [exact Q|]. intros q B. apply (pieces_covers _ _ _ _ q) in Q; [apply Q; exact B|lia].
Qed.

(** Otherwise the last sample is not summarized: its end is computed modulo 2^32 *)
Theorem C113_last_sample_refuted : forall n npackets, 1 <= n < npackets -> npackets < 2^32 -> 2^32 <= n * ((npackets + n - 1) / n) ->
  exists l, summarized n npackets = (l, false) /\ pieces n 0 (n * ((npackets - 1) / n)) l /\ covers (npackets - 1) l = 0%nat.
Proof.
  intros n np N U W. destruct (num_sum_ceil n np N) as (E & E2 & E3). unfold summarized. replace (num_sum n np =? 0) with false by lia.
  assert (K : Z.of_nat (Z.to_nat (num_sum n np)) = num_sum n np) by lia.
  assert (W' : 2^32 <= n * num_sum n np) by (rewrite E; exact W).
  destruct (samples_fail n np (Z.to_nat (num_sum n np)) 0 ltac:(lia) ltac:(lia) ltac:(lia) ltac:(lia)) as (l & S & Q); [rewrite K, Z.add_0_l; exact E3|rewrite K, Z.add_0_l; exact W'|].
  rewrite K, Z.add_0_l, Z.mul_0_r in Q. exists l. split; [exact S|].
  assert (X : num_sum n np - 1 = (np - 1) / n). { apply (Z.div_unique _ _ _ (np - 1 - n * (num_sum n np - 1))); lia. }
  rewrite <- X. split; [exact Q|]. apply (pieces_covers _ _ _ _ (np - 1)) in Q; [apply Q; lia|lia].
Qed.

Example C113_case : summarized 40 100 = ([(0, 40); (40, 80); (80, 100)], true) /\ summarized 3000000000 4000000000 = ([(0, 3000000000)], false).
Proof. split; vm_compute; reflexivity. Qed.

(** ** C114: the percentiles that are asked for are reported *)

Section Percentiles.
Variable strtod : list Z -> option number.
Hypothesis strtod_nil : strtod [] = None.
(** a part of the list that strtod takes for a number from 0 to 100, or for NaN *)
Definition wanted (p : list Z) (a : number) : Prop := strtod p = Some a /\ match a with Number q => (0 <= q <= 100)%Q | NaN => True end.

(** A list is accepted exactly if each part between the commas is (for strtod) a number from 0 to 100 or NaN.  Missing: that it is only a number, refuted below *)
Theorem C114_accepted_partial : forall parts l, parts <> [] -> Forall (fun p => ~ In 44 p) parts ->
  (parse_percentile strtod (commas parts) = Some l <-> Forall2 wanted parts l).
Proof.
  intros parts l N F. rewrite (parse_percentile_ok strtod strtod_nil parts l N F).
  assert (X : forall p a, parse_alpha strtod p = Some a <-> wanted p a).
  { intros p a. unfold parse_alpha, wanted. destruct (strtod p) as [[q|]|].
    - destruct (Qle_bool 0 q && Qle_bool q 100) eqn:B.
      + apply andb_true_iff in B. destruct B as (B1 & B2). apply Qle_bool_iff in B1, B2. split; [intros [= <-]; auto|intros (E & _); exact E].
      + split; [discriminate|]. intros (E & R). injection E as <-. destruct R as (R1 & R2). apply Qle_bool_iff in R1, R2. rewrite R1, R2 in B. discriminate.
    - split; [intros [= <-]; auto|intros (E & _); exact E].
    - split; [discriminate|intros (E & _); discriminate]. }
  clear N F. split; intros H; induction H; constructor; auto; apply X; assumption.
Qed.
End Percentiles.

(** What is reported for a number: the least bucket that holds (with those below it) this percentage of the packets sent, up to a relative error of
    2^-23 of the percentage.  Missing: without the error, refuted below *)
Theorem C114_reported_partial : forall q sent s, (0 <= q <= 100)%Q -> 0 <= sent < 2^32 -> StronglySorted (fun x y => fst x < fst y) s -> Forall (fun y => 0 < snd y) s ->
  match reported (Number q) sent s with
  | Aborted => False
  | Bucket b => In b (map fst s) /\ (q * inject_Z sent * (1 - (1 # 2^23)) <= inject_Z (up_to b s) * 100)%Q /\
      forall b', In b' (map fst s) -> b' < b -> (inject_Z (up_to b' s) * 100 < q * inject_Z sent * (1 + (1 # 2^23)))%Q
  | NotAvailable => forall b', In b' (map fst s) -> (inject_Z (up_to b' s) * 100 < q * inject_Z sent * (1 + (1 # 2^23)))%Q
  end.
Proof. intros q sent s Q S SO P. exact (reported_near q sent s Q S SO P). Qed.

(** 99.9 %: 999 of 1000 packets are in the bucket 10, but the bucket 5000 of the slowest packet is reported: 99.9 becomes a float that is larger.
    [q] is the double next to 99.9 *)
Theorem C114_rounding_refuted : exists n d s, (n, Zpos d) = b64 999 10 /\ s = [(10, 999); (5000, 1)] /\ up_to 10 s * 1000 = 999 * 1000 /\
  reported (Number (n # d)) 1000 s = Bucket 5000.
Proof.
  exists (fst (b64 999 10)), (Z.to_pos (snd (b64 999 10))), [(10, 999); (5000, 1)]. split; [vm_compute; reflexivity|]. split; [reflexivity|]. split; vm_compute; reflexivity.
Qed.

(** The text "nan" is accepted and makes the program abort when it prints the summary *)
Theorem C114_nan_refuted : forall strtod p sent s, strtod [] = None -> strtod p = Some NaN -> ~ In 44 p ->
  parse_percentile strtod p = Some [NaN] /\ reported NaN sent s = Aborted.
Proof.
  intros strtod p sent s N E C. split; [|reflexivity]. change p with (commas [p]).
  apply (C114_accepted_partial strtod N); [discriminate|constructor; [exact C|constructor]|]. constructor; [split; [exact E|exact I]|constructor].
Qed.

(** numbers of one digit with anything behind it, and nan *)
Definition toy_number (s : list Z) : option number :=
  if eqb_octets s (chars "nan") then Some NaN else match s with c :: _ => if (48 <=? c) && (c <=? 57) then Some (Number (inject_Z (c - 48))) else None | [] => None end.
Example C114_case : parse_percentile toy_number (chars "5,9") = Some [Number (inject_Z 5); Number (inject_Z 9)] /\ parse_percentile toy_number (chars "5,,9") = None /\
  parse_percentile toy_number (chars "nan") = Some [NaN] /\ parse_percentile toy_number (chars "5 and more") = Some [Number (inject_Z 5)] /\
  reported (Number 50) 4 [(10, 1); (20, 1); (30, 1)] = Bucket 20 /\ reported (Number 95) 4 [(10, 1); (20, 1); (30, 1)] = NotAvailable.
Proof. vm_compute. repeat split; reflexivity. Qed.

(** ** C115: the report on reordering is complete and true *)

(** The lines of the text are those with packets reordered, for all n up to the size of the counters; the last line says that there is no more, or that
    larger n were not looked at.  The packets received are taken with their duplicates.  Missing: without them, C45_refuted; the percentage, C45_percentage_refuted *)
Theorem C115_text_partial : forall start timeout npackets rec_size skips delta rlistlen bucket, session_ok start delta rlistlen ->
  forall used g c recs g', obtained start timeout npackets rec_size skips delta rlistlen bucket used g -> call_ok npackets rec_size c -> looks_at rec_size c recs ->
  do_call start timeout npackets rec_size skips delta rlistlen bucket c g = POk g' ->
  let seqs := map r_seq (arrived (counting npackets skips c recs)) in
  let lines := text_reordering (o_n (g_ro g')) (o_num (g_ro g')) in
  (forall n count total, In (Reordering n count total) lines <-> 1 <= n <= Z.of_nat rlistlen /\ 0 < reordered (Z.to_nat n) seqs /\ count = reordered (Z.to_nat n) seqs /\ total = o_num (g_ro g')) /\
  (In NoReordering lines -> forall n, (1 <= n)%nat -> reordered n seqs = 0) /\
  (forall m, In (NoMore m) lines -> 1 <= m /\ forall n, (Z.to_nat m <= n)%nat -> reordered n seqs = 0) /\
  (forall m, In (NotHandled m) lines -> m = Z.of_nat rlistlen + 1).
Proof.
  intros start timeout npackets rec_size skips delta rlistlen bucket SO used g c recs g' O OK L E seqs lines.
  destruct (C45_reordering_partial start timeout npackets rec_size skips delta rlistlen bucket SO used g c recs g' O OK L E) as (LN & CN & _). fold seqs in CN.
  assert (POS : forall n l, 0 <= reordered n l).
  { intros n l. unfold reordered. generalize (@nil Z). induction l as [|x l IH]; intros p; cbn [reordered_from]; [lia|]. specialize (IH (x :: p)). destruct (behind_larger n x p); lia. }
  assert (RL : (0 < rlistlen)%nat) by apply SO.
  set (rn := o_n (g_ro g')) in *. unfold lines, text_reordering. fold rn. set (lead := leading 1 rn).
  destruct (leading_len rn 1) as (LL & LZ). fold lead in LL, LZ.
  assert (STOP : (length lead < length rn)%nat -> forall n, (S (length lead) <= n)%nat -> reordered n seqs = 0).
  { intros LT n LN2. specialize (LZ LT). assert (Z0 : reordered (S (length lead)) seqs = 0). { rewrite <- CN by lia. replace (S (length lead) - 1)%nat with (length lead) by lia. exact LZ. }
    eapply C45_stops; [|exact Z0]. lia. }
  split; [|split; [|split]].
  - intros n count total. split.
    + intros I. apply in_app_iff in I. destruct I as [I|[I|[]]].
      * apply in_map_iff in I. destruct I as ([m k] & E1 & I). injection E1 as <- <- <-. cbn [fst snd]. apply leading_In in I. destruct I as (i & -> & LI & NI & NZ).
        replace (Z.to_nat (1 + Z.of_nat i)) with (S i) by lia. assert (V : reordered (S i) seqs = k). { rewrite <- CN by lia. replace (S i - 1)%nat with i by lia. exact NI. }
        pose proof (POS (S i) seqs). lia.
      * destruct (_ =? 0); [discriminate|]. destruct (_ <? _); discriminate.
    + intros (B & P & -> & ->). apply in_app_iff. left. apply in_map_iff. exists (n, reordered (Z.to_nat n) seqs). split; [reflexivity|].
      replace n with (1 + Z.of_nat (Z.to_nat n - 1)) at 1 by lia. replace (reordered (Z.to_nat n) seqs) with (nth (Z.to_nat n - 1) rn 0) by (apply CN; lia).
      apply leading_all; [lia|]. intros j J X. replace j with (S j - 1)%nat in X by lia. rewrite CN in X by lia.
      pose proof (C45_stops (S j) (Z.to_nat n) seqs ltac:(lia) X). lia.
  - intros I n N. apply in_app_iff in I. destruct I as [I|[I|[]]].
    + apply in_map_iff in I. destruct I as (x & D & _). discriminate.
    + destruct (Z.eqb_spec (Z.of_nat (length lead)) 0) as [Z0|Z0]; [|destruct (_ <? _); discriminate]. apply STOP; lia.
  - intros m I. apply in_app_iff in I. destruct I as [I|[I|[]]].
    + apply in_map_iff in I. destruct I as (x & D & _). discriminate.
    + destruct (Z.eqb_spec (Z.of_nat (length lead)) 0) as [Z0|Z0]; [discriminate|]. destruct (Z.ltb_spec (Z.of_nat (length lead)) (Z.of_nat (length rn))) as [LT|GE]; [|discriminate].
      injection I as <-. split; [lia|]. intros n N. apply STOP; lia.
  - intros m I. apply in_app_iff in I. destruct I as [I|[I|[]]].
    + apply in_map_iff in I. destruct I as (x & D & _). discriminate.
    + destruct (Z.eqb_spec (Z.of_nat (length lead)) 0) as [Z0|Z0]; [discriminate|]. destruct (_ <? _); [discriminate|]. injection I as <-. lia.
Qed.

(** The machine readable report says that there is no 11-reordering, with one packet that is 11-reordered: the counters (of size 10 here) do not go that far *)
Definition late_recs : list datarec := map (fun n => x_rec (Z.of_nat n) (1001 + Z.of_nat n) 1013 60) (seq 1 11) ++ [x_rec 0 1001 1013 60].
Definition late_result : parsed := do_call (secs 1000) (20 * 2^32) 12 25 [] x_delta 10 x_bucket (x_call late_recs 200 0 12) x_new.
Theorem C115_machine_refuted : exists g, late_result = POk g /\
  reordered 11 (map r_seq (arrived (counting 12 [] (x_call late_recs 200 0 12) late_recs))) = 1 /\ In (11, 0) (machine_reordering (o_n (g_ro g))).
Proof.
  assert (X : match late_result with POk g => existsb (fun p => (fst p =? 11) && (snd p =? 0)) (machine_reordering (o_n (g_ro g))) | _ => false end = true) by (vm_compute; reflexivity).
  destruct late_result as [g|g|]; [|discriminate|discriminate]. exists g. split; [reflexivity|]. split; [vm_compute; reflexivity|].
  apply existsb_exists in X. destruct X as ([a b] & I & E). cbn [fst snd] in E. replace 11 with a by lia. replace 0 with b by lia. exact I.
Qed.

(** the session of Props_Stats: one packet of four behind a larger number *)
Example C115_case : exists g, x_do x_recs 200 0 4 x_new = POk g /\ text_reordering (o_n (g_ro g)) (o_num (g_ro g)) = [Reordering 1 1 4; NoMore 2].
Proof. eexists. split; [vm_compute; reflexivity|]. vm_compute. reflexivity. Qed.

(** ** C116: the times of the first and the last packet *)

(** The fraction of the second is printed to the millisecond.  Missing: the last half of a millisecond of every second, refuted below *)
Theorem C116_fraction_partial : forall nsec, 0 <= nsec < 999499879 -> length (fraction_text nsec) = 3%nat /\ - 500121 <= nanoseconds (fraction_text nsec) - nsec <= 500121.
Proof.
  intros nsec B. pose proof (ms_near nsec ltac:(lia)) as N. unfold fraction_text. assert (M : 0 <= milliseconds nsec < 1000).
  { split; [|lia]. destruct (Z.le_gt_cases 0 (milliseconds nsec)); [assumption|]. exfalso. lia. }
  rewrite printed_value by exact M. split; [|lia]. unfold printed. replace (milliseconds nsec <? 1000) with true by lia. reflexivity.
Qed.

(** In the last half of a millisecond the text is ".1000", the tenth part of a second *)
Theorem C116_carry_refuted : forall nsec, 999500122 <= nsec < 1000000000 -> fraction_text nsec = [1; 0; 0; 0] /\ nanoseconds (fraction_text nsec) = 100000000.
Proof.
  intros nsec B. pose proof (ms_near nsec ltac:(lia)) as N. assert (M : milliseconds nsec = 1000) by lia. unfold fraction_text. rewrite M. split; reflexivity.
Qed.

Example C116_case : fraction_text 250000000 = [2; 5; 0] /\ fraction_text 7400000 = [0; 0; 7] /\ fraction_text 999600000 = [1; 0; 0; 0].
Proof. vm_compute. repeat split; reflexivity. Qed.

(** ** C117: times are reported in the unit that was asked for *)

(** For nanoseconds, microseconds and milliseconds the values are multiplied by what makes a second and the unit is printed; other letters than those of the manual
    (and capitals) are refused.  Missing: seconds are printed without unit *)
Theorem C117_units_partial :
  (forall u f a, In (u, f, a) units -> u <> "s"%string -> forall c, chars u = [c] -> scale c = Some (f, chars a)) /\
  (forall c f a, scale c = Some (f, a) -> exists u b, In (u, f, b) units /\ chars u = [lower c]).
Proof.
  split.
  - intros u f a I NS c E. repeat (destruct I as [I|I]; [injection I as <- <- <-; try congruence; vm_compute in E; injection E as <-; vm_compute; reflexivity|]). destruct I.
  - intros c f a E. unfold scale in E. cbv zeta in E. generalize dependent (lower c). intros l E.
    destruct (l =? 110) eqn:L110; [injection E as <- <-; exists "n"%string, "ns"%string; split; [left; reflexivity|replace l with 110 by lia; reflexivity]|].
    destruct (l =? 117) eqn:L117; [injection E as <- <-; exists "u"%string, "us"%string; split; [right; left; reflexivity|replace l with 117 by lia; reflexivity]|].
    destruct (l =? 109) eqn:L109; [injection E as <- <-; exists "m"%string, "ms"%string; split; [right; right; left; reflexivity|replace l with 109 by lia; reflexivity]|].
    destruct (l =? 115) eqn:L115; [injection E as <- <-; exists "s"%string, "s"%string; split; [right; right; right; left; reflexivity|replace l with 115 by lia; reflexivity]|discriminate].
Qed.

(** seconds are printed without unit *)
Theorem C117_seconds_refuted : exists c, chars "s" = [c] /\ scale c = Some (1, []).
Proof. exists 115. split; reflexivity. Qed.

Example C117_case : scale 109 = Some (1000, chars "ms") /\ scale 77 = Some (1000, chars "ms") /\ scale 120 = None.
Proof. vm_compute. repeat split; reflexivity. Qed.

(** ** C118: delays, and their minimum and maximum *)

(** The delay is the difference of the two time stamps up to 2^-20 s.  Missing: to the resolution of the time stamps (2^-32 s), refuted below *)
Theorem C118_delay_partial : forall send recv, 0 <= send < 2^64 -> 0 <= recv < 2^64 -> - 2^52 < recv - send < 2^52 -> - 2^12 <= delay send recv - (recv - send) <= 2^12.
Proof.
  intros send recv S R D. unfold delay. pose proof (dbl_near send S). pose proof (dbl_near recv R). set (x := dbl recv - dbl send) in *.
  assert (B : - 2^53 <= x <= 2^53) by lia. rewrite dbl_exact by lia. rewrite Z.sgn_abs || rewrite <- (Z.mul_comm (Z.abs x)). rewrite ?Z.abs_sgn. lia.
Qed.

(** Two time stamps of the year 2026 that differ by 2^-22 s (238 ns) give the delay 0, as if the packet had taken no time; two others with the same difference give 2^-21 s *)
Theorem C118_resolution_refuted : exists s r s' r', r - s = 2^10 /\ delay s r = 0 /\ r' - s' = 2^10 /\ delay s' r' = 2^11 /\ 2^10 < s < s' /\ s' = s + 2^11.
Proof. exists (3990000000 * 2^32), (3990000000 * 2^32 + 2^10), (3990000000 * 2^32 + 2^11), (3990000000 * 2^32 + 2^11 + 2^10). vm_compute. repeat split; reflexivity. Qed.

(** The minimum and the maximum that are reported are those of the delays of the packets received; they are reported if some delay is inside of the timeout.
    Missing: a delay that reaches the timeout by rounding, refuted below *)
Theorem C118_extremes_partial : forall timeout delays, 0 <= timeout < 2^53 -> 
  (forall m, reported_min timeout delays = Some m -> In m delays /\ forall x, In x delays -> m <= x) /\
  (forall m, reported_max timeout delays = Some m -> In m delays /\ forall x, In x delays -> x <= m) /\
  ((exists x, In x delays /\ - timeout <= x <= timeout) -> reported_min timeout delays <> None /\ reported_max timeout delays <> None).
Proof.
  intros timeout delays T. unfold reported_min, reported_max, extremes. cbn [fst snd]. cbv zeta.
  assert (I : dbl (u64 (timeout + 1)) = timeout + 1). { unfold u64. rewrite Z.mod_small by lia. apply dbl_exact. lia. }
  rewrite I. destruct (fold_min delays (timeout + 1)) as (A1 & A2 & A3). destruct (fold_max delays (- (timeout + 1))) as (B1 & B2 & B3).
  split; [|split].
  - intros m. destruct (Z.leb_spec (timeout + 1) (fold_left Z.min delays (timeout + 1))) as [L|L]; [discriminate|]. intros [= <-]. destruct A1 as [A1|A1]; [lia|]. split; [exact A1|exact A3].
  - intros m. destruct (Z.leb_spec (fold_left Z.max delays (- (timeout + 1))) (- (timeout + 1))) as [L|L]; [discriminate|]. intros [= <-]. destruct B1 as [B1|B1]; [lia|]. split; [exact B1|exact B3].
  - intros (x & IX & X). specialize (A3 x IX). specialize (B3 x IX).
    replace (timeout + 1 <=? fold_left Z.min delays (timeout + 1)) with false by lia. replace (fold_left Z.max delays (- (timeout + 1)) <=? - (timeout + 1)) with false by lia. split; discriminate.
Qed.

(** With a timeout of 0.1 s, a packet that took a little less can have a computed delay above the timeout; if it is the only one, no minimum is reported *)
Theorem C118_no_minimum_refuted : exists timeout s r, timeout = 2^32 / 10 /\ 2^63 < s /\ 0 < r - s < timeout /\ reported_min timeout [delay s r] = None.
Proof. exists 429496729, (3990000000 * 2^32 + 700), (3990000000 * 2^32 + 700 + 429496720). vm_compute. repeat split; reflexivity. Qed.

Print Assumptions C113_samples_partial.
Print Assumptions C113_last_sample_refuted.
Print Assumptions C114_accepted_partial.
Print Assumptions C114_reported_partial.
Print Assumptions C114_rounding_refuted.
Print Assumptions C114_nan_refuted.
Print Assumptions C115_text_partial.
Print Assumptions C115_machine_refuted.
Print Assumptions C116_fraction_partial.
Print Assumptions C116_carry_refuted.
Print Assumptions C117_units_partial.
Print Assumptions C117_seconds_refuted.
Print Assumptions C118_delay_partial.
Print Assumptions C118_resolution_refuted.
Print Assumptions C118_extremes_partial.
Print Assumptions C118_no_minimum_refuted.
