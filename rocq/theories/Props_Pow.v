(** Property theorems about the program powstream: C86 (sessions follow each other), C87 (records
    are stored once), C88 (it does not fail), C89 (names of the files) and C90 (continuity).  Vocabulary: Pow_Spec.v, [event] and [halt] of Pow_Model.v. *)
From Coq Require Import ZArith List Bool Lia ZifyBool ZifyNat Arith.
From Verif Require Import Base BaseLemmas Arith_Model Sender_Spec Receiver_Spec Pow_Model Pow_Spec Pow_Proofs Pow_Names Pow_Example.
Import ListNotations.
Open Scope Z_scope.

(** An execution of powstream: packets in a summary, number of summaries (0: no summaries, one session
    has as many packets as a summary would), loss timeout, options -i, -I, -z, -t and -p, the schedule that
    belongs to a session identifier, number of nested signal checks that are considered, passes through the main loop, and
    what the outside world answers *)
Record execution := mkExecution { x_packets : nat; x_sums : nat; x_loss : Z; x_iotime : Z; x_retry : Z; x_delay : Z; x_sender : bool; x_print : bool;
  x_delta : Z -> nat -> Z; x_depth : nat; x_passes : nat; x_env : list ans }.
Definition outcome (x : execution) : res unit * world :=
  passes (x_packets x) (x_sums x) (x_loss x) (x_iotime x) (x_retry x) (x_delay x) (x_sender x) (x_print x) (x_delta x) (x_depth x) (x_passes x) (world0 (x_env x)).
(** what it has done *)
Definition x_log (x : execution) : list event := w_log (snd (outcome x)).
(** how it has ended, if it has *)
Definition ended (x : execution) (h : halt) : Prop := fst (outcome x) = Halt h.
(** the options accepted: at least one packet; without -t a nested check cannot occur *)
Definition sensible (x : execution) : Prop := (0 < x_packets x)%nat /\ (x_sender x = false -> x_depth x <> 0%nat).
(** number of packets of a session *)
Definition x_npackets (x : execution) : nat := match x_sums x with O => x_packets x | _ => (x_packets x * x_sums x)%nat end.

(** the executions of Pow_Example.v *)
Definition example (sender printfiles : bool) (env : list ans) (n : nat) : execution := mkExecution 2 2 (2 * 2^32) 3 0 0 sender printfiles d 3 n env.

Lemma undisturbed_did : x_log (example false false undisturbed 3) =
  [EStart 1 7 (sec 1010) (sec 1010); EStart 2 8 (sec 1080) (sec 1013); ESum 1 0 2 (sec 1010) (sec 1040); EOver 1; ESum 1 2 4 (sec 1040) (sec 1080);
   ESession 1 (sec 1010) (sec 1080); EWhole 1 (sec 1010) (sec 1080);
   EOver 1; EStart 3 9 (sec 1150) (sec 1092); ESum 2 0 2 (sec 1080) (sec 1110); EOver 2; ESum 2 2 4 (sec 1110) (sec 1150); ESession 2 (sec 1080) (sec 1150); EWhole 2 (sec 1080) (sec 1150)].
Proof. vm_compute. reflexivity. Qed.

(** C86: whenever a session is started, each session that was started before and is not over has its
    last packet scheduled no later than the start of the new one *)
Theorem C86_sessions_do_not_overlap : forall x before after id sid start now id' sid' start' now', sensible x ->
  x_log x = before ++ EStart id sid start now :: after ->
  In (EStart id' sid' start' now') before -> ~ In (EOver id') before ->
  sched_stamp start' (x_delta x sid') (Z.of_nat (x_npackets x) - 1) <= start.
Proof.
  intros x before after id sid start now id' sid' start' now' (N0 & D) E I O.
  pose proof (main_ok (N := x_packets x) (K := x_sums x) (loss := x_loss x) (iotime := x_iotime x) (retry := x_retry x) (delay_start := x_delay x) (sender := x_sender x)
    (printfiles := x_print x) (delta := x_delta x) (depth := x_depth x) D N0 (x_passes x) (x_env x)) as ((A & _) & _).
  exact (A _ _ _ _ _ _ E _ _ _ _ I O).
Qed.
Print Assumptions C86_sessions_do_not_overlap.
(** two sessions, the second started while the first is running *)
Example C86_met : exists before after, x_log (example false false undisturbed 3) = before ++ EStart 2 8 (sec 1080) (sec 1013) :: after /\
  In (EStart 1 7 (sec 1010) (sec 1010)) before /\ ~ In (EOver 1) before /\ sched_stamp (sec 1010) (d 7) (Z.of_nat (x_npackets (example false false undisturbed 3)) - 1) = sec 1080.
Proof.
  exists [EStart 1 7 (sec 1010) (sec 1010)]. eexists. rewrite undisturbed_did. split; [reflexivity|]. split; [now left|]. split; [intros [X|[]]; discriminate|]. vm_compute. reflexivity.
Qed.

(** C87: the records of a session are stored under at most one name, at most once *)
Theorem C87_records_stored_once : forall x id before mid after from upto from' upto', sensible x ->
  x_log x <> before ++ ESession id from upto :: mid ++ ESession id from' upto' :: after.
Proof.
  intros x id before mid after from upto from' upto' (N0 & D) E.
  pose proof (main_ok (N := x_packets x) (K := x_sums x) (loss := x_loss x) (iotime := x_iotime x) (retry := x_retry x) (delay_start := x_delay x) (sender := x_sender x)
    (printfiles := x_print x) (delta := x_delta x) (depth := x_depth x) D N0 (x_passes x) (x_env x)) as ((_ & A & _) & _).
  specialize (A id). change (snd _) with (snd (outcome x)) in A. change (w_log (snd (outcome x))) with (x_log x) in A. rewrite E in A.
  unfold stored in A. rewrite filter_app in A. cbn [filter] in A. rewrite Nat.eqb_refl, app_length in A. cbn [length] in A. rewrite filter_app in A. cbn [filter] in A.
  rewrite Nat.eqb_refl, app_length in A. cbn [length] in A. lia.
Qed.
Print Assumptions C87_records_stored_once.
Example C87_met : sensible (example false false undisturbed 3) /\ In (ESession 1 (sec 1010) (sec 1080)) (x_log (example false false undisturbed 3)).
Proof.
  split; [split; [cbn; lia|discriminate]|]. rewrite undisturbed_did. do 5 right. left. reflexivity.
Qed.

(** C88: powstream uses no NULL pointer, fails no assertion and prints no indeterminate string.
    Proved without the options -t and -p.  Missing: the options -t and -p, see the refutations *)
Theorem C88_does_not_fail_partial : forall x h, sensible x -> x_sender x = false -> x_print x = false -> ended x h -> h = HNoMore \/ h = HExit.
Proof.
  intros x h (N0 & D) S P E.
  pose proof (main_ok (N := x_packets x) (K := x_sums x) (loss := x_loss x) (iotime := x_iotime x) (retry := x_retry x) (delay_start := x_delay x) (sender := x_sender x)
    (printfiles := x_print x) (delta := x_delta x) (depth := x_depth x) D N0 (x_passes x) (x_env x)) as (_ & A).
  specialize (A h E). destruct A as (_ & _ & A & B). destruct (A S) as (A1 & A2). specialize (B P). destruct h; tauto.
Qed.
Print Assumptions C88_does_not_fail_partial.
Example C88_met : sensible (example false false (undisturbed ++ [mkAns true 0 0 false true; yes; num 0; yes; yes; yes; yes]) 4) /\
  ended (example false false (undisturbed ++ [mkAns true 0 0 false true; yes; num 0; yes; yes; yes; yes]) 4) HExit.
Proof. split; [split; [cbn; lia|discriminate]|]. vm_compute. reflexivity. Qed.

(** With -t a hangup signal that arrives while the connection for fetching the records is opened closes all sessions, but the
    signal check, nested in itself through the records then fetched, reports that nothing has happened; powstream goes on with a
    connection that is closed and uses a NULL pointer *)
Theorem C88_hangup_refuted : exists x, sensible x /\ x_print x = false /\ ended x HCrash.
Proof. exists (example true false hungup 3). split; [split; [cbn; lia|discriminate]|]. split; [reflexivity|vm_compute; reflexivity]. Qed.
Print Assumptions C88_hangup_refuted.

(** With -p, if the file of a session cannot be made for lack of resources, an indeterminate name is printed *)
Theorem C88_printed_name_refuted : exists x, sensible x /\ x_sender x = false /\ ended x HGarbage.
Proof. exists (example false true nofile 3). split; [split; [cbn; lia|discriminate]|]. split; [reflexivity|vm_compute; reflexivity]. Qed.
Print Assumptions C88_printed_name_refuted.

(** an execution without -t in which no setup of a session fails *)
Definition smooth (x : execution) : Prop := sensible x /\ x_sender x = false /\ ~ In EFailed (x_log x).
Lemma smooth_good : forall x, smooth x -> Good (N := x_packets x) (K := x_sums x) (delta := x_delta x) (x_log x).
Proof.
  intros x ((N0 & _) & S & NF).
  pose proof (names_ok (N := x_packets x) (K := x_sums x) (loss := x_loss x) (iotime := x_iotime x) (retry := x_retry x) (delay_start := x_delay x)
    (printfiles := x_print x) (delta := x_delta x) (depth := x_depth x) N0 (x_passes x) (x_env x)) as G. cbv zeta in G. unfold x_log, outcome in *. rewrite S in *. exact (G NF).
Qed.
Lemma undisturbed_smooth : smooth (example false false undisturbed 3).
Proof. split; [split; [cbn; lia|discriminate]|]. split; [reflexivity|]. rewrite undisturbed_did. cbn. intros X. repeat (destruct X as [X|X]; [discriminate|]). exact X. Qed.

(** C89: the file of a summary of the packets from number first to number last (not included) is named after the time of
    the start of the range and its end according to the schedule of the session.  Missing: -t, and executions in which
    the setup of a session fails, see the refutations *)
Theorem C89_summary_names_partial : forall x id first last from upto, smooth x -> In (ESum id first last from upto) (x_log x) ->
  exists sid start now k, In (EStart id sid start now) (x_log x) /\ (k < x_sums x)%nat /\ first = Z.of_nat (x_packets x * k) /\ last = Z.of_nat (x_packets x * (k + 1)) /\
    from = stamp (x_delta x) sid start (Z.to_nat first) /\ upto = stamp (x_delta x) sid start (Z.to_nat last).
Proof.
  intros x id first last from upto SX X. destruct (g_sum _ (smooth_good x SX) _ _ _ _ _ X) as (sid & start & now & k & A1 & A2 & A3 & A4 & A5 & A6). exists sid, start, now, k.
  replace (k + 1)%nat with (S k) by lia. rewrite A3, A4, !Nat2Z.id. auto 10.
Qed.
Print Assumptions C89_summary_names_partial.
(** the ranges of a session are summarized in order, each at most once.  Missing: as above *)
Theorem C89_summaries_in_order_partial : forall x id first last from upto first' last' from' upto' before mid after, smooth x ->
  x_log x = before ++ ESum id first last from upto :: mid ++ ESum id first' last' from' upto' :: after -> first < first'.
Proof. intros x id first last from upto first' last' from' upto' before mid after SX X. exact (g_order _ (smooth_good x SX) _ _ _ _ _ _ _ _ _ _ _ _ X). Qed.
Print Assumptions C89_summaries_in_order_partial.
(** the files about all records of a session are named after its start and its scheduled end; those of a session that was
    abandoned possibly after an earlier time of its schedule.  Missing: as above *)
Theorem C89_session_names_partial : forall x id from upto, smooth x -> In (ESession id from upto) (x_log x) \/ In (EWhole id from upto) (x_log x) ->
  exists sid now m, In (EStart id sid from now) (x_log x) /\ (0 < m <= x_npackets x)%nat /\ upto = stamp (x_delta x) sid from m /\ (m = x_npackets x \/ In (EBroken id) (x_log x)).
Proof.
  intros x id from upto SX X. destruct (g_file _ (smooth_good x SX) _ _ _ X) as (sid & start & now & m & A1 & A2 & A3 & A4 & A5). exists sid, now, m. subst from. auto.
Qed.
Print Assumptions C89_session_names_partial.
(** if the records of a session are stored that was not abandoned, its summaries are there, unless it was reported that one could not be stored.  Missing: as above *)
Theorem C89_all_summaries_partial : forall x id from upto k, smooth x -> In (ESession id from upto) (x_log x) -> ~ In (EBroken id) (x_log x) -> ~ In (EMissed id) (x_log x) -> (k < x_sums x)%nat ->
  exists first last from' upto', In (ESum id first last from' upto') (x_log x) /\ first = Z.of_nat (x_packets x * k) /\ last = Z.of_nat (x_packets x * (k + 1)).
Proof.
  intros x id from upto k SX X NB NM LK. destruct (g_all _ (smooth_good x SX) _ _ _ X NB NM k LK) as (a & b & Y). replace (k + 1)%nat with (S k) by lia. eauto 10.
Qed.
Print Assumptions C89_all_summaries_partial.
Example C89_met : smooth (example false false undisturbed 3) /\ In (ESum 1 2 4 (sec 1040) (sec 1080)) (x_log (example false false undisturbed 3)) /\
  In (ESession 1 (sec 1010) (sec 1080)) (x_log (example false false undisturbed 3)) /\ ~ In (EBroken 1) (x_log (example false false undisturbed 3)) /\ ~ In (EMissed 1) (x_log (example false false undisturbed 3)) /\
  (forall start, start = sec 1010 -> stamp d 7 start 2 = sec 1040 /\ stamp d 7 start 4 = sec 1080).
Proof.
  split; [exact undisturbed_smooth|]. rewrite undisturbed_did. split; [do 4 right; now left|]. split; [do 5 right; now left|].
  split; [cbn; intros X; repeat (destruct X as [X|X]; [discriminate|]); exact X|]. split; [cbn; intros X; repeat (destruct X as [X|X]; [discriminate|]); exact X|]. intros start ->. vm_compute. split; reflexivity.
Qed.

Lemma fails_did : x_log (example false false fails 4) =
  [EStart 1 7 (sec 1010) (sec 1010); EFailed; EStart 2 8 (sec 1080) (sec 1014); ESum 1 0 2 (sec 1010) (sec 1050); EOver 1; ESum 1 2 4 (sec 1050) (sec 1100);
   ESession 1 (sec 1010) (sec 1080); EWhole 1 (sec 1010) (sec 1080)].
Proof. vm_compute. reflexivity. Qed.
Lemma late_did : x_log (example false false late 4) =
  [EStart 1 7 (sec 1010) (sec 1010); ESum 1 0 2 (sec 1010) (sec 1040); EFailed; EStart 2 8 (sec 1080) (sec 1062); ESum 1 0 2 (sec 1080) (sec 1130); EOver 1;
   ESum 1 2 4 (sec 1130) (sec 1160); ESession 1 (sec 1080) (sec 1080); EWhole 1 (sec 1080) (sec 1080)].
Proof. vm_compute. reflexivity. Qed.
Lemma lost_did : x_log (example false false lost 4) =
  [EStart 1 7 (sec 1010) (sec 1010); EStart 2 8 (sec 1080) (sec 1013); ESum 1 0 2 (sec 1010) (sec 1040); EOver 1; EBroken 1; ESession 1 (sec 1010) (sec 1080); EWhole 1 (sec 1010) (sec 1080);
   EOver 2; EBroken 2; EOver 2; EStart 3 9 (sec 1055) (sec 1055); EStart 4 10 (sec 1125) (sec 1056); ESum 3 0 2 (sec 1055) (sec 1085); EOver 3; ESum 3 2 4 (sec 1085) (sec 1125);
   ESession 3 (sec 1055) (sec 1125); EWhole 3 (sec 1055) (sec 1125)].
Proof. vm_compute. reflexivity. Qed.
Lemma back_did : x_log (example false false back 3) = [EOver 0; EFailed; EFailed; EStart 1 7 (sec 1010) (sec 510)].
Proof. vm_compute. reflexivity. Qed.

(** If the setup of the next session fails while a range of packets is waited for, the loop over the summaries starts again with the
    schedule where it was: the summaries of a session that ran without any trouble are stored under wrong times *)
Theorem C89_summary_name_refuted : exists x id first last from upto sid start now, sensible x /\ x_sender x = false /\ In (EStart id sid start now) (x_log x) /\ In (ESum id first last from upto) (x_log x) /\
  upto <> stamp (x_delta x) sid start (Z.to_nat last).
Proof.
  exists (example false false fails 4), 1%nat, 0, 2, (sec 1010), (sec 1050), 7, (sec 1010), (sec 1010). split; [split; [cbn; lia|discriminate]|]. split; [reflexivity|]. rewrite fails_did.
  split; [now left|]. split; [do 3 right; now left|]. vm_compute. discriminate.
Qed.
Print Assumptions C89_summary_name_refuted.
(** If it fails later, after the time limit for the setup has passed once, the same range is summarized twice under different times, and the file of
    the records is named after the end of the session only *)
Theorem C89_summarized_twice_refuted : exists x id from upto from' upto' sid start now, sensible x /\ x_sender x = false /\ In (EStart id sid start now) (x_log x) /\
  In (ESum id 0 (Z.of_nat (x_packets x)) from upto) (x_log x) /\ In (ESum id 0 (Z.of_nat (x_packets x)) from' upto') (x_log x) /\ upto < from' /\
  In (ESession id (sched_stamp start (x_delta x sid) (Z.of_nat (x_npackets x) - 1)) (sched_stamp start (x_delta x sid) (Z.of_nat (x_npackets x) - 1))) (x_log x).
Proof.
  exists (example false false late 4), 1%nat, (sec 1010), (sec 1040), (sec 1080), (sec 1130), 7, (sec 1010), (sec 1010). split; [split; [cbn; lia|discriminate]|]. split; [reflexivity|]. rewrite late_did.
  split; [now left|]. split; [right; now left|]. split; [do 4 right; now left|]. split; [reflexivity|]. change (sched_stamp _ _ _) with (stamp d 7 (sec 1010) 4). replace (stamp d 7 (sec 1010) 4) with (sec 1080) by (vm_compute; reflexivity). do 7 right. now left.
Qed.
Print Assumptions C89_summarized_twice_refuted.
(** If the connection is lost, the records are stored under the time of the scheduled end although none can be that late,
    and the files of successive sessions have overlapping times *)
Theorem C89_disjoint_names_refuted : exists x id from upto id' from' upto', sensible x /\ x_sender x = false /\ id <> id' /\
  In (ESession id from upto) (x_log x) /\ In (ESession id' from' upto') (x_log x) /\ from < from' < upto.
Proof.
  exists (example false false lost 4), 1%nat, (sec 1010), (sec 1080), 3%nat, (sec 1055), (sec 1125). split; [split; [cbn; lia|discriminate]|]. split; [reflexivity|]. rewrite lost_did. split; [discriminate|].
  split; [do 5 right; now left|]. split; [do 15 right; now left|]. split; reflexivity.
Qed.
Print Assumptions C89_disjoint_names_refuted.

(** C90: a session starts as soon as possible (10 s after the time its setup began, later by -z for the first), or exactly when the
    last packet of an earlier session is scheduled, if that is later.  Missing: as above *)
Theorem C90_continuity_partial : forall x before after id sid start now, smooth x -> x_log x = before ++ EStart id sid start now :: after ->
  start = now \/ now <= start /\ exists id' sid' start' now', In (EStart id' sid' start' now') before /\ start = sched_stamp start' (x_delta x sid') (Z.of_nat (x_npackets x) - 1).
Proof. intros x before after id sid start now SX E. exact (g_next _ (smooth_good x SX) _ _ _ _ _ _ E). Qed.
Print Assumptions C90_continuity_partial.
(** a number stands for one session *)
Theorem sessions_are_numbered : forall x id sid start now sid' start' now', smooth x -> In (EStart id sid start now) (x_log x) -> In (EStart id sid' start' now') (x_log x) -> sid' = sid /\ start' = start /\ now' = now.
Proof. intros x id sid start now sid' start' now' SX. apply (g_once _ (smooth_good x SX)). Qed.
Example C90_met : smooth (example false false undisturbed 3) /\ exists before after, x_log (example false false undisturbed 3) = before ++ EStart 3 9 (sec 1150) (sec 1092) :: after /\
  sec 1150 = sched_stamp (sec 1080) (d 8) (Z.of_nat (x_npackets (example false false undisturbed 3)) - 1).
Proof. split; [exact undisturbed_smooth|]. rewrite undisturbed_did. exists [EStart 1 7 (sec 1010) (sec 1010); EStart 2 8 (sec 1080) (sec 1013); ESum 1 0 2 (sec 1010) (sec 1040); EOver 1; ESum 1 2 4 (sec 1040) (sec 1080); ESession 1 (sec 1010) (sec 1080); EWhole 1 (sec 1010) (sec 1080); EOver 1].
  eexists. split; [reflexivity|vm_compute; reflexivity]. Qed.
(** If a setup fails and the clock is set back, the next session starts at a time that is neither *)
Theorem C90_clock_set_back_refuted : exists x id sid start now after, sensible x /\ x_sender x = false /\ (forall id' sid' start' now', ~ In (EStart id' sid' start' now') after) /\
  x_log x = after ++ [EStart id sid start now] /\ now < start.
Proof.
  exists (example false false back 3), 1%nat, 7, (sec 1010), (sec 510), [EOver 0; EFailed; EFailed]. split; [split; [cbn; lia|discriminate]|]. split; [reflexivity|].
  split; [cbn; intros; intros X; repeat (destruct X as [X|X]; [discriminate|]); exact X|]. split; [exact back_did|reflexivity].
Qed.
Print Assumptions C90_clock_set_back_refuted.
