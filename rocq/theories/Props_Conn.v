(** Properties C109-C112: the process of the daemon that serves a connection.

    Vocabulary: Conn_Spec.v and the types of Conn_Model.v ([state], [point], [event], [run]). *)
From Coq Require Import ZArith List Bool Lia ZifyBool.
From Verif Require Import Base Conn_Model Conn_Spec Conn_Proofs.
Import ListNotations.
Open Scope Z_scope.

(** ** C109: a silent client is disconnected after controltimeout *)
(** Whenever the process waits for a request, or for the rest of one, or trades the last Stop-Sessions messages after SIGTERM, the timer runs or has expired.
    Missing: the trade of Stop-Sessions messages when sessions are complete, refuted below *)
Theorem C109_timer_partial : forall twamp timeout s, timeout <> 0 -> reached twamp timeout any s -> awaits_client (pt s) -> pt s <> Trading -> armed s = true \/ alrm s = true.
Proof. intros twamp timeout s T R A N. apply (timer_reached twamp timeout any s T R). destruct (pt s); try contradiction; try reflexivity. Qed.

(** If the timer does not expire before the process sleeps, it runs whenever the process waits for a request, and when it expires the connection is closed.
    Missing: as above, and the timer that expires too early *)
Theorem C109_disconnects_partial : forall twamp timeout s, timeout <> 0 -> reached twamp timeout punctual s -> pt s = Reading ->
  exists s', run twamp timeout s [Alarm; Go] = Some s' /\ pt s' = Done.
Proof.
  intros twamp timeout s T R P. pose proof (punctual_reached _ _ _ T R (or_intror P)) as A. destruct s as [p ex it al ir ar va re]. cbn [pt armed] in *. subst p ar.
  eexists. split; [reflexivity|]. cbn. rewrite orb_true_r. reflexivity.
Qed.

Definition one_session : list event := [Go; Go; Go; Message Start; Answered Fine; Go; Go; Go].

(** When its sessions are complete the process trades Stop-Sessions messages without timer: a client that does not send its message keeps the process (and its place among maxcontrolsessions) for ever *)
Theorem C109_silent_after_sessions_refuted : exists s, reached false 1800 punctual s /\ pt s = Trading /\ exit s = false /\
  forall e s', step false 1800 s e = Some s' -> from_client e \/ signal e.
Proof.
  destruct (run false 1800 init (one_session ++ [Complete])) as [s|] eqn:E; [|vm_compute in E; discriminate].
  exists s. split; [eapply reached_allowed; [apply start| |exact E]; vm_compute; tauto|]. vm_compute in E. injection E as <-. split; [reflexivity|]. split; [reflexivity|].
  intros e s' E. destruct e; try discriminate; cbn; auto.
Qed.

(** A timer that expires between its start and the read (the process was suspended for so long) is without effect: the process sleeps without timer *)
Theorem C109_lost_alarm_refuted : exists s, reached false 1800 any s /\ pt s = Reading /\
  forall e s', step false 1800 s e = Some s' -> from_client e \/ signal e.
Proof.
  destruct (run false 1800 init [Go; Go; Alarm; Go]) as [s|] eqn:E; [|vm_compute in E; discriminate].
  exists s. split; [eapply reached_allowed; [apply start| |exact E]; vm_compute; tauto|]. vm_compute in E. injection E as <-. split; [reflexivity|].
  intros e s' E. destruct e; try discriminate; cbn; auto.
Qed.

(** a client that was served and then is silent *)
Example C109_met : exists s, reached false 1800 punctual s /\ pt s = Reading /\ armed s = true.
Proof.
  destruct (run false 1800 init [Go; Go; Go; Message Other; Answered Fine; Go; Go; Go; Go]) as [s|] eqn:E; [|vm_compute in E; discriminate].
  exists s. split; [eapply reached_allowed; [apply start| |exact E]; vm_compute; tauto|]. vm_compute in E. injection E as <-. repeat split.
Qed.

(** ** C110: controltimeout does not end running sessions *)
Theorem C110_sessions_not_cut : forall twamp timeout s, reached twamp timeout any s -> awaits_sessions (pt s) \/ pt s = Trading -> armed s = false /\ step twamp timeout s Alarm = None.
Proof.
  intros twamp timeout s R A. assert (U : armed s = false) by (apply (untimed_reached twamp timeout any s R); destruct (pt s); cbn in A; try reflexivity; destruct A as [A|A]; try contradiction; discriminate).
  split; [exact U|]. unfold step. destruct (pt s) eqn:P; rewrite ?U; reflexivity.
Qed.

(** sessions run *)
Example C110_met : exists s, reached true 1800 any s /\ pt s = Waiting.
Proof.
  destruct (run true 1800 init (one_session ++ [Active])) as [s|] eqn:E; [|vm_compute in E; discriminate].
  exists s. split; [eapply reached_allowed; [apply start| |exact E]; vm_compute; tauto|]. vm_compute in E. injection E as <-. reflexivity.
Qed.

(** ** C111: a connection survives the end of a process of its sessions *)
(** While it waits for sessions: if others are active it goes on waiting, in the same state.  Missing: while it waits for a request, refuted below *)
Theorem C111_survives_while_waiting_partial : forall twamp timeout s, reached twamp timeout any s -> pt s = Waiting -> exit s = false -> int s = false -> intr s = false ->
  run twamp timeout s [Chld; Go; Go; Active] = Some s.
Proof. intros twamp timeout [p ex it al ir ar va re] R P X I N. cbn [pt exit int intr] in *. subst. reflexivity. Qed.

(** If the process of a session that was accepted but not started ends while the daemon waits for a request, the daemon closes the connection *)
Theorem C111_closed_refuted :
  (exists s, reached false 1800 punctual s /\ pt s = Reading /\ exit s = false /\ alrm s = false) /\
  forall timeout s, reached false timeout any s -> pt s = Reading -> exit s = false -> alrm s = false ->
    exists s', run false timeout s [Chld; Go; Go; Go; Go; Go] = Some s' /\ pt s' = Done.
Proof.
  split.
  - destruct (run false 1800 init [Go; Go; Go]) as [s|] eqn:E; [|vm_compute in E; discriminate].
    exists s. split; [eapply reached_allowed; [apply start| |exact E]; vm_compute; tauto|]. vm_compute in E. injection E as <-. repeat split.
  - intros timeout [p ex it al ir ar va re] R P X A. cbn [pt exit alrm] in *. subst. exists (State Done false it false false (negb (timeout =? 0)) false re). split; [cbn; reflexivity|reflexivity].
Qed.

(** A TWAMP server sends an Accept-Session message that nobody asked for; the client will take it for the answer to its next request *)
Theorem C111_unsolicited_answer_refuted :
  (exists s, reached true 1800 punctual s /\ pt s = Reading /\ exit s = false /\ alrm s = false) /\
  forall timeout s, reached true timeout any s -> pt s = Reading -> exit s = false -> alrm s = false ->
    exists s', run true timeout s [Chld; Go; Go; Go; Go; Go; Go; Go; Go] = Some s' /\ pt s' = Reading /\ refusals s' = S (refusals s).
Proof.
  split.
  - destruct (run true 1800 init [Go; Go; Go]) as [s|] eqn:E; [|vm_compute in E; discriminate].
    exists s. split; [eapply reached_allowed; [apply start| |exact E]; vm_compute; tauto|]. vm_compute in E. injection E as <-. repeat split.
  - intros timeout [p ex it al ir ar va re] R P X A. cbn [pt exit alrm] in *. subst. exists (State Reading false it false false (negb (timeout =? 0)) true (S re)). split; [cbn; reflexivity|]. split; reflexivity.
Qed.

(** one of two sessions ends *)
Example C111_met : exists s, reached false 1800 any s /\ pt s = Waiting /\ exit s = false /\ int s = false /\ intr s = false.
Proof.
  destruct (run false 1800 init (one_session ++ [Active; Chld; Go; Go; Active])) as [s|] eqn:E; [|vm_compute in E; discriminate].
  exists s. split; [eapply reached_allowed; [apply start| |exact E]; vm_compute; tauto|]. vm_compute in E. injection E as <-. repeat split.
Qed.

(** ** C112: a connection ends when the daemon is told to *)
(** After the signal at most one more request is served *)
Theorem C112_at_most_one_more : forall twamp timeout l s s', exit s = true -> run twamp timeout s l = Some s' -> (requests l <= 1)%nat.
Proof.
  intros twamp timeout l s s' X E. pose proof (request_run _ _ _ _ _ X E). assert (may_read (pt s) <= 1)%nat by (destruct (pt s); cbn; lia). lia.
Qed.

(** While it waits for a request, SIGTERM ends the connection; while sessions run, Stop-Sessions messages are traded first, with timer, and the signal does not cut the trade (OWAMP); SIGINT ends
    the connection at once.
    Missing: the moments in which nothing sleeps, refuted below *)
Theorem C112_ends_partial : forall twamp timeout s, reached twamp timeout any s ->
  (pt s = Reading -> exists s', run twamp timeout s [Term; Go] = Some s' /\ pt s' = Done) /\
  (twamp = false -> pt s = Waiting -> int s = false -> exists s', run twamp timeout s [Term; Go; Go; Go] = Some s' /\ pt s' = Stopping /\ (timeout <> 0 -> armed s' = true) /\
    step twamp timeout s' Broken = None) /\
  (pt s = Reading \/ pt s = Waiting -> exists s', run twamp timeout s [Int; Go] = Some s' /\ pt s' = Done).
Proof.
  intros twamp timeout [p ex it al ir ar va re] R. cbn [pt int]. split; [|split].
  - intros ->. eexists. split; reflexivity.
  - intros -> -> ->. eexists. split; [reflexivity|]. split; [reflexivity|]. split; [cbn; lia|reflexivity].
  - intros [->| ->]; eexists; (split; [reflexivity|]); reflexivity.
Qed.

(** SIGTERM after the last test of the flag and before the process sleeps is not noticed until the client sends something, or the timer expires *)
Theorem C112_not_noticed_refuted : exists s, reached false 1800 punctual s /\ exit s = true /\ pt s = Reading /\
  forall e s', step false 1800 s e = Some s' -> from_client e \/ signal e \/ e = Alarm.
Proof.
  destruct (run false 1800 init [Go; Go; Go; Message Other; Answered Fine; Go; Term; Go; Go; Go]) as [s|] eqn:E; [|vm_compute in E; discriminate].
  exists s. split; [eapply reached_allowed; [apply start| |exact E]; vm_compute; tauto|]. vm_compute in E. injection E as <-. split; [reflexivity|]. split; [reflexivity|].
  intros e s' E. destruct e; try discriminate; cbn; auto.
Qed.

(** The same before sessions are waited for: the sessions go on, and there is no timer *)
Theorem C112_sessions_go_on_refuted : exists s, reached false 1800 punctual s /\ exit s = true /\ pt s = Waiting /\
  forall e s', step false 1800 s e = Some s' -> from_client e \/ signal e.
Proof.
  destruct (run false 1800 init ([Go; Go; Go; Message Start; Answered Fine; Go; Go; Term; Go; Active])) as [s|] eqn:E; [|vm_compute in E; discriminate].
  exists s. split; [eapply reached_allowed; [apply start| |exact E]; vm_compute; tauto|]. vm_compute in E. injection E as <-. split; [reflexivity|]. split; [reflexivity|].
  intros e s' E. destruct e; try discriminate; cbn; auto.
Qed.

(** a request that is served after the signal *)
Example C112_met : exists s s', reached false 1800 any s /\ exit s = true /\ run false 1800 s [Message Other; Answered Fine; Go] = Some s' /\ pt s' = Done.
Proof.
  destruct (run false 1800 init [Term; Go; Go; Go]) as [s|] eqn:E; [|vm_compute in E; discriminate].
  exists s. exists (State Done true false false false true true 0). split; [eapply reached_allowed; [apply start| |exact E]; vm_compute; tauto|]. vm_compute in E. injection E as <-. split; [reflexivity|]. split; reflexivity.
Qed.

Print Assumptions C109_timer_partial.
Print Assumptions C109_disconnects_partial.
Print Assumptions C109_silent_after_sessions_refuted.
Print Assumptions C109_lost_alarm_refuted.
Print Assumptions C110_sessions_not_cut.
Print Assumptions C111_survives_while_waiting_partial.
Print Assumptions C111_closed_refuted.
Print Assumptions C111_unsolicited_answer_refuted.
Print Assumptions C112_at_most_one_more.
Print Assumptions C112_ends_partial.
Print Assumptions C112_not_noticed_refuted.
Print Assumptions C112_sessions_go_on_refuted.
