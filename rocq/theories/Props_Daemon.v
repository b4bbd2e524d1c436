(** Properties C102-C106: the main process of the daemon.

    Vocabulary: Daemon_Spec.v and the types of Daemon_Model.v ([state], [point], [event], [run]). *)
From Coq Require Import ZArith List Bool Lia.
From Verif Require Import Base Daemon_Model Daemon_Spec Daemon_Proofs.
Import ListNotations.
Open Scope Z_scope.

(** ** C102: never more processes than maxcontrolsessions *)
Theorem C102_limit : forall max dieby s, 0 < max < 2 ^ 32 - 1 -> reached max dieby any s -> total (serving s) <= max.
Proof. intros max dieby s M R. exact (limit_ok max dieby any s M R). Qed.

Theorem C102_no_limit : forall dieby s, reached 0 dieby any s -> pt s <> Refusing.
Proof. intros dieby s R P. pose proof (full_reached _ _ _ _ R P) as F. discriminate. Qed.

(** two connections are served, the limit is reached *)
Definition serve (pid fd : Z) : list event := [Ready true; Connected; Go; Forks pid fd; Alloc true; Grow true].
Definition again : list event := [Go; Go; Go; Go].
Example C102_met : exists s, reached 2 5 any s /\ serving s = [11; 10].
Proof.
  destruct (run 2 5 init ([Go; Go] ++ serve 10 5 ++ again ++ serve 11 6)) as [s|] eqn:E; [|vm_compute in E; discriminate].
  exists s. split; [eapply reached_run; [apply start|intros; exact I|exact E]|]. vm_compute in E. injection E as <-. reflexivity.
Qed.

(** ** C103: a connection is refused only if maxcontrolsessions processes serve *)
(** Without lack of memory, and if no process ends in the instant between the last waitpid of ReapChildren and the clearing of the flag of SIGCHLD, a refused connection means that the processes that serve and those that ended since the last look are maxcontrolsessions together.  Missing: the two cases that are refuted below, in which a process that ended keeps its place *)
Theorem C103_refused_only_if_full_partial : forall max dieby s, 0 <= max < 2 ^ 32 - 1 -> reached max dieby timely s -> pt s = Refusing ->
  total (serving s) + total (ended s) = max /\ (ended s = [] \/ chld s = true).
Proof. exact refused_ok. Qed.

(** With a limit of two a connection is refused although one process serves: a process ended after the last waitpid of ReapChildren and before the flag of SIGCHLD was cleared, and ReapChildren does nothing without the flag *)
Theorem C103_lost_signal_refuted : exists s, reached 2 5 no_failure s /\ pt s = Refusing /\ total (serving s) = 1.
Proof.
  set (l := [Go; Go] ++ serve 10 5 ++ again ++ serve 11 6 ++ [Exits 10; Go; Go; Reaped 10 true; NoChild; Exits 11; Go; Go; Go] ++ serve 12 5 ++ again ++ [Ready true; Connected; Go; Go; Go]).
  destruct (run 2 5 init l) as [s|] eqn:E; [|vm_compute in E; discriminate].
  exists s. split; [eapply reached_allowed; [apply start| |exact E]; vm_compute; tauto|]. vm_compute in E. injection E as <-. split; reflexivity.
Qed.

(** With a limit of one, after realloc failed once for the array of descriptors, the process that was started then keeps its place for ever: no connection is served any more, whatever happens *)
Theorem C103_place_never_freed_refuted : exists s, reached 1 5 any s /\ procs s = [] /\ pt s = Top /\ exit s = false /\
  forall l s', run 1 5 s l = Some s' -> serving s' = [].
Proof.
  set (l := [Go; Go; Ready true; Connected; Go; Forks 10 5; Alloc true; Grow false; Exits 10; Go; Go; Reaped 10 true; NoChild; Go]).
  destruct (run 1 5 init l) as [s|] eqn:E; [|vm_compute in E; discriminate].
  exists s. split; [eapply reached_run; [apply start|intros; exact I|exact E]|]. vm_compute in E. injection E as <-.
  split; [reflexivity|]. split; [reflexivity|]. split; [reflexivity|]. intros l' s' E. eapply spent_run in E; [|split; [reflexivity|split; [reflexivity|exact I]]].
  destruct E as (P & _). unfold serving. rewrite P. reflexivity.
Qed.

(** a refusal with two processes that serve *)
Example C103_met : exists s, reached 2 5 timely s /\ pt s = Refusing /\ serving s = [11; 10] /\ ended s = [].
Proof.
  destruct (run 2 5 init ([Go; Go] ++ serve 10 5 ++ again ++ serve 11 6 ++ again ++ [Ready true; Connected; Go; Go; Go])) as [s|] eqn:E; [|vm_compute in E; discriminate].
  exists s. split; [eapply reached_allowed; [apply start| |exact E]; vm_compute; tauto|]. vm_compute in E. injection E as <-. repeat split.
Qed.

(** ** C104: the main process does not crash *)
(** Without lack of memory every process that waitpid returns is in the table.  Missing: lack of memory, refuted below *)
Theorem C104_no_crash_partial : forall max dieby s, reached max dieby no_failure s -> pt s <> Crashed.
Proof. exact crash_free. Qed.

(** If there is no memory for the record of a new process, the process is killed but is not in the table; when waitpid returns it, ReapChildren uses what the lookup of another process left, or an uninitialised pointer *)
Theorem C104_unknown_process_refuted : exists s, reached 0 5 any s /\ pt s = Crashed.
Proof.
  destruct (run 0 5 init [Go; Go; Ready true; Connected; Go; Forks 10 5; Alloc false; Exits 10; Go; Go; Reaped 10 true]) as [s|] eqn:E; [|vm_compute in E; discriminate].
  exists s. split; [eapply reached_run; [apply start|intros; exact I|exact E]|]. vm_compute in E. injection E as <-. reflexivity.
Qed.

(** ** C105: the end of the daemon *)
(** After the signal at most one more connection is served *)
Theorem C105_at_most_one_more : forall max dieby l s s', exit s = true -> run max dieby s l = Some s' -> (forks l <= 1)%nat.
Proof. exact fork_ok. Qed.

(** When the main process has ended no process serves a connection any more *)
Theorem C105_nothing_left : forall max dieby s, reached max dieby any s -> pt s = Ended -> serving s = [].
Proof. intros max dieby s R. exact (ended_ok max dieby any s R). Qed.

(** A signal between the test of the flag and poll is not seen: the daemon sleeps, and only a connection or another signal wakes it *)
Theorem C105_signal_before_poll_refuted : exists s, reached 0 5 no_failure s /\ exit s = true /\ pt s = Polling /\
  forall e s', step 0 5 s e = Some s' -> e = Term \/ e = Ready true.
Proof.
  destruct (run 0 5 init [Go; Term; Go]) as [s|] eqn:E; [|vm_compute in E; discriminate].
  exists s. split; [eapply reached_allowed; [apply start| |exact E]; vm_compute; tauto|]. vm_compute in E. injection E as <-. split; [reflexivity|]. split; [reflexivity|].
  intros e s' E. destruct e as [|pid| | |fd|[]| | | |pid fd| |[]|[]|pid [] |]; try discriminate; auto.
Qed.

(** With dieby 0, if the last process ends between the test of the flag and sigsuspend, the main process sleeps for ever although all have ended *)
Theorem C105_last_process_missed_refuted : exists s, reached 0 0 no_failure s /\ pt s = Suspended /\ serving s = [] /\ ended s = [10] /\
  forall e s', step 0 0 s e = Some s' -> e = Term.
Proof.
  destruct (run 0 0 init ([Go; Go] ++ serve 10 5 ++ [Term; Go; Go; Go; Go; Exits 10; Go])) as [s|] eqn:E; [|vm_compute in E; discriminate].
  exists s. split; [eapply reached_allowed; [apply start| |exact E]; vm_compute; tauto|]. vm_compute in E. injection E as <-. split; [reflexivity|]. split; [reflexivity|]. split; [reflexivity|].
  intros e s' E. destruct e as [|pid| | |fd|[]| | | |pid fd| |[]|[]|pid [] |]; try discriminate; auto.
  - cbn [step procs existsb fst] in E. destruct (Z.eqb_spec 10 pid) as [<-|]; discriminate.
  - cbn [step kids existsb k_fd] in E. destruct (-1 =? fd) eqn:X; [|discriminate]. apply Z.eqb_eq in X. subst fd. discriminate.
Qed.

(** With any other dieby, if the alarm comes between the test and sigsuspend, the processes are not killed after dieby seconds: the main process sleeps until another signal comes *)
Theorem C105_alarm_missed_refuted : exists s, reached 0 5 no_failure s /\ pt s = Suspended /\ serving s = [10] /\ alrm s = true /\
  forall e s', step 0 5 s e = Some s' -> e = Term \/ e = Exits 10.
Proof.
  destruct (run 0 5 init ([Go; Go] ++ serve 10 5 ++ [Term; Go; Go; Go; Go; Alarm; Go])) as [s|] eqn:E; [|vm_compute in E; discriminate].
  exists s. split; [eapply reached_allowed; [apply start| |exact E]; vm_compute; tauto|]. vm_compute in E. injection E as <-. split; [reflexivity|]. split; [reflexivity|]. split; [reflexivity|].
  intros e s' E. destruct e as [|pid| | |fd|[]| | | |pid fd| |[]|[]|pid [] |]; try discriminate; auto.
  - cbn [step procs existsb fst] in E. destruct (Z.eqb_spec 10 pid) as [<-|]; [right; reflexivity|discriminate].
  - cbn [step kids existsb k_fd] in E. destruct (-1 =? fd) eqn:X; [|discriminate]. apply Z.eqb_eq in X. subst fd. discriminate.
Qed.

(** the signal comes while a connection is accepted; the connection is still served, then everything ends *)
Example C105_met : exists s s', reached 0 5 any s /\ exit s = true /\ run 0 5 s [Connected; Go; Forks 10 5; Alloc true; Grow true; Go; Go; Go; Go; Go; Exits 10; Go; Reaped 10 true; NoChild; Go; Go; Go] = Some s' /\ pt s' = Ended.
Proof.
  destruct (run 0 5 init [Go; Go; Ready true; Term]) as [s|] eqn:E; [|vm_compute in E; discriminate].
  exists s. match goal with |- exists s', _ /\ _ /\ run _ _ _ ?l = _ /\ _ => destruct (run 0 5 s l) as [s'|] eqn:E' end; [|vm_compute in E; injection E as <-; vm_compute in E'; discriminate].
  exists s'. split; [eapply reached_run; [apply start|intros; exact I|exact E]|]. vm_compute in E. injection E as <-. split; [reflexivity|]. split; [reflexivity|].
  vm_compute in E'. injection E' as <-. reflexivity.
Qed.

(** ** C106: the messages of the processes are answered *)
(** Without lack of memory, whenever poll finds no connection all waiting messages are answered.  Missing: poll finds a connection, refuted below *)
Theorem C106_all_answered_partial : forall max dieby s s', reached max dieby no_failure s -> step max dieby s (Ready false) = Some s' -> asking s' = [].
Proof. exact served_ok. Qed.

(** As long as each poll finds a connection no message is answered: a process waits for n further connections to be served and ended, for every n *)
Theorem C106_starvation_refuted : exists s, reached 0 5 no_failure s /\ asking s = [5] /\
  forall n, exists l s', run 0 5 s l = Some s' /\ forks l = n /\ asking s' = [5].
Proof.
  destruct (run 0 5 init ([Go; Go] ++ serve 10 5 ++ again ++ [Asks 5])) as [s|] eqn:E; [|vm_compute in E; discriminate].
  exists s. split; [eapply reached_allowed; [apply start| |exact E]; vm_compute; tauto|]. vm_compute in E. injection E as <-. split; [reflexivity|].
  intros n. exists (times n (serve 11 6 ++ [Exits 11; Go; Go; Reaped 11 true; NoChild; Go; Go; Go])). eexists. split; [apply run_times; vm_compute; reflexivity|].
  split; [|reflexivity]. rewrite forks_times. change (n * 1 = n)%nat. lia.
Qed.

(** A process whose descriptor found no room in the array is not heard at all *)
Theorem C106_not_heard_refuted : exists s, reached 0 5 any s /\ pt s = Polling /\ serving s = [10] /\ asking s = [5] /\
  step 0 5 s (Ready false) = None.
Proof.
  destruct (run 0 5 init ([Go; Go; Ready true; Connected; Go; Forks 10 5; Alloc true; Grow false] ++ again ++ [Asks 5])) as [s|] eqn:E; [|vm_compute in E; discriminate].
  exists s. split; [eapply reached_run; [apply start|intros; exact I|exact E]|]. vm_compute in E. injection E as <-. repeat split.
Qed.

(** two processes have asked, both are answered *)
Example C106_met : exists s s', reached 2 5 no_failure s /\ asking s = [5; 6] /\ step 2 5 s (Ready false) = Some s' /\ asking s' = [].
Proof.
  destruct (run 2 5 init ([Go; Go] ++ serve 10 5 ++ again ++ serve 11 6 ++ again ++ [Asks 6; Asks 5])) as [s|] eqn:E; [|vm_compute in E; discriminate].
  exists s. eexists. split; [eapply reached_allowed; [apply start| |exact E]; vm_compute; tauto|]. vm_compute in E. injection E as <-. split; [reflexivity|]. split; [vm_compute; reflexivity|reflexivity].
Qed.

Print Assumptions C102_limit.
Print Assumptions C102_no_limit.
Print Assumptions C103_refused_only_if_full_partial.
Print Assumptions C103_lost_signal_refuted.
Print Assumptions C103_place_never_freed_refuted.
Print Assumptions C104_no_crash_partial.
Print Assumptions C104_unknown_process_refuted.
Print Assumptions C105_at_most_one_more.
Print Assumptions C105_nothing_left.
Print Assumptions C105_signal_before_poll_refuted.
Print Assumptions C105_last_process_missed_refuted.
Print Assumptions C105_alarm_missed_refuted.
Print Assumptions C106_all_answered_partial.
Print Assumptions C106_starvation_refuted.
Print Assumptions C106_not_heard_refuted.
