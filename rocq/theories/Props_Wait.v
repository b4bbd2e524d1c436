(** Properties C91-C96: waiting for test sessions to end.

    The theorems are about Wait_Model.v; Wait_Spec.v has the vocabulary: [outcome] (the status of a process), [children] (the processes
    of some sessions), [reached] (sessions after any number of questions about them).  [stop_sessions_wait] is the function
    OWPStopSessionsWait: [Returns rc err] that it returns [rc], [Stops] that it stops the sessions by OWPStopSessions and returns 0,
    [Reads] that it reads a message (of which C66 and C67 speak), [Sleeps] that it never returns.  Its world contains what happens between
    its system calls ([w_between]) and while it sleeps ([w_during]), both arbitrary. *)
From Coq Require Import ZArith List Bool Lia.
From Verif Require Import Base Wait_Model Wait_Spec Wait_Proofs.
Import ListNotations.
Open Scope Z_scope.

(** ** an example: two local sessions, as they are after they were started; the clock shows 1000 s *)
Definition one : list session := [mkSess 7 (Some (mkE (-1) 0))].
Definition two : list session := [mkSess 7 (Some (mkE (-1) 0)); mkSess 8 None; mkSess 9 (Some (mkE (-1) 1))].
Definition starting (b : list (list happening)) (d : list happening) : world :=
  mkW (fun _ => Alive) (fun _ => false) false false (1000 * M32) true b d.
Definition client : control := mkC true false false.
Definition reflector : control := mkC true true true.
Definition result_of (x : result * Z * list session * world) : result := fst (fst (fst x)).
Definition tests_of (x : result * Z * list session * world) : list session := snd (fst x).
Definition world_of (x : result * Z * list session * world) : world := snd x.

Lemma one_reached : forall b d, reached one (starting b d).
Proof. intros b d. apply R_fresh. split; [repeat constructor; cbn; intuition discriminate|repeat constructor]. Qed.
Lemma two_reached : forall b d, reached two (starting b d).
Proof. intros b d. apply R_fresh. split; [repeat constructor; cbn; intuition discriminate|repeat constructor]. Qed.

(** the first session ends well, then the second, then the sessions are stopped *)
Example waits : exists a tests w',
  stop_sessions_wait client None false two (starting [] [Clock (1010 * M32); Ends 0 (Exited 0); Other; Ends 1 (Exited 0)]) = (Stops, a, tests, w') /\ a = 0.
Proof. eexists. eexists. eexists. split; reflexivity. Qed.

(** ** C91: OWPStopSessionsWait returns what owamp.h promises *)

(** It returns 1 when the wake-up time is reached.  Missing: it returns up to a millisecond early, and the time must be less than 2^31
    milliseconds (24.8 days) ahead, see C91_early_refuted, C91_wrap_refuted and C91_oversleeps_refuted. *)
Theorem C91_wakes_partial : forall c t intr tests w a tests' w',
  reached tests w -> 0 <= w_now w -> is_u64 t -> (t - w_now w) * 1000 < 2 ^ 31 * 2 ^ 32 ->
  (forall err, stop_sessions_wait c (Some t) intr tests w = (Returns 1 err, a, tests', w') -> (t - w_now w') * 1000 < 2 ^ 32) /\
  (stop_sessions_wait c (Some t) intr tests w = (Sleeps, a, tests', w') ->
   Forall (Forall (fun e => match e with Clock _ => False | _ => True end)) (w_between w) -> w_now w' < t).
Proof.
  intros c t intr tests w a tests' w' R N U L. apply reached_coherent in R. change (2 ^ 31 * 2 ^ 32) with (2147483648 * M32) in L. split.
  - intros err E. destruct (wait_ok _ _ _ _ _ _ _ _ _ E R) as (_ & _ & _ & _ & _ & _ & H & _).
    destruct (H err eq_refl) as (t' & X & Y). injection X as <-. specialize (Y N U L). change (2 ^ 32) with M32. lia.
  - intros E S. destruct (wait_ok _ _ _ _ _ _ _ _ _ E R) as (_ & _ & _ & _ & _ & _ & _ & _ & _ & _ & H).
    destruct (H eq_refl) as (X & _). destruct (X t eq_refl N U L) as (_ & Y). apply Y. exact S.
Qed.
Print Assumptions C91_wakes_partial.

(** A wake-up time in the past makes it return at once, whatever happens. *)
Theorem C91_poll_partial : forall c t intr tests w res a tests' w',
  reached tests w -> 0 <= w_now w -> is_u64 t -> t <= w_now w ->
  stop_sessions_wait c (Some t) intr tests w = (res, a, tests', w') ->
  res <> Sleeps /\ (forall err, res = Returns 2 err -> intr = true /\ w_flag w' = true).
Proof.
  intros c t intr tests w res a tests' w' R N U P E. apply reached_coherent in R.
  destruct (wait_ok _ _ _ _ _ _ _ _ _ E R) as (_ & _ & _ & _ & _ & _ & _ & H2 & _ & _ & H). split.
  - intros X. destruct (H X) as (Y & _). destruct (Y t eq_refl N U ltac:(lia)) as (Z0 & _). lia.
  - intros err X. destruct (H2 err X) as [Y|(t' & T & Y)]; [apply andb_prop; exact Y|]. injection T as <-. specialize (Y N U). lia.
Qed.
Print Assumptions C91_poll_partial.

(** Without a wake-up time and a flag it returns neither 1 nor 2, and a negative value only without a connection; with a flag it returns 2 only if
    the flag is set. *)
Theorem C91_blocks : forall c tests w res a tests' w',
  reached tests w -> stop_sessions_wait c None false tests w = (res, a, tests', w') ->
  forall rc err, res = Returns rc err -> rc = 0 \/ rc = -1 /\ c_sock c = false.
Proof.
  intros c tests w res a tests' w' R E rc err X. apply reached_coherent in R.
  destruct (wait_ok _ _ _ _ _ _ _ _ _ E R) as (_ & _ & _ & _ & _ & _ & H1 & H2 & H3 & H4 & _).
  destruct (H3 _ _ X) as [Y|[Y|[Y|Y]]]; subst rc; auto.
  - right. split; [reflexivity|]. destruct (H4 _ X) as [Y|(Y & _)]; [exact Y|congruence].
  - destruct (H1 _ X) as (t & Y & _). discriminate Y.
  - destruct (H2 _ X) as [Y|(t & Y & _)]; discriminate Y.
Qed.
Print Assumptions C91_blocks.

Theorem C91_flag : forall c tests w err a tests' w',
  reached tests w -> stop_sessions_wait c None true tests w = (Returns 2 err, a, tests', w') -> w_flag w' = true.
Proof.
  intros c tests w err a tests' w' R E. apply reached_coherent in R.
  destruct (wait_ok _ _ _ _ _ _ _ _ _ E R) as (_ & _ & _ & _ & _ & _ & _ & H2 & _).
  destruct (H2 _ eq_refl) as [Y|(t & Y & _)]; [exact Y|discriminate Y].
Qed.
Print Assumptions C91_flag.

(** Without a connection it fails. *)
Theorem C91_no_connection : forall twoway server wake intr tests w,
  result_of (stop_sessions_wait (mkC false twoway server) wake intr tests w) = Returns (-1) ErrFATAL.
Proof. reflexivity. Qed.
Print Assumptions C91_no_connection.

Example C91_nonvacuous :
  (* the time is over *)
  result_of (stop_sessions_wait client (Some (1001 * M32)) false two (starting [] [Clock (1000 * M32 + 5); Clock (1001 * M32)])) = Returns 1 ErrOK /\
  (* a wake-up time in the past *)
  result_of (stop_sessions_wait client (Some 0) false two (starting [] [])) = Returns 1 ErrOK /\
  (* a session ends *)
  result_of (stop_sessions_wait client (Some (1001 * M32)) false two (starting [] [Ends 0 (Exited 0)])) = Returns 2 ErrOK /\
  (* the flag is set *)
  result_of (stop_sessions_wait client None true two (starting [] [Other; Interrupt])) = Returns 2 ErrOK /\
  (* input *)
  result_of (stop_sessions_wait client None true two (starting [] [Other; Input])) = Reads.
Proof. repeat split. Qed.

(** The wake-up time is rounded down to milliseconds: it returns 1 before that time. *)
Theorem C91_early_refuted : exists c t tests w a tests' w',
  reached tests w /\ stop_sessions_wait c (Some t) false tests w = (Returns 1 ErrOK, a, tests', w') /\ w_now w' < t /\ 0 <= w_now w /\ is_u64 t.
Proof.
  exists client, (1000 * M32 + 4000000), one, (starting [] []).
  eexists. eexists. eexists. split; [apply one_reached|]. split; [reflexivity|]. split; [reflexivity|]. split; [cbn; lia|red; lia].
Qed.
Print Assumptions C91_early_refuted.

(** The number of milliseconds is stored in an int: with a wake-up time 49.7 days ahead it returns 1 at once ... *)
Theorem C91_wrap_refuted : exists c t tests w a tests' w',
  reached tests w /\ stop_sessions_wait c (Some t) false tests w = (Returns 1 ErrOK, a, tests', w') /\
  w_now w' + 4294900 * M32 < t /\ 0 <= w_now w /\ is_u64 t.
Proof.
  exists client, ((1000 + 4294968) * M32), one, (starting [] [Clock (1001 * M32)]).
  eexists. eexists. eexists. split; [apply one_reached|]. split; [reflexivity|]. split; [reflexivity|]. split; [cbn; lia|red; lia].
Qed.
Print Assumptions C91_wrap_refuted.

(** ... and with one 25 days ahead it does not return when that time has come. *)
Theorem C91_oversleeps_refuted : exists c t tests w a tests' w',
  reached tests w /\ stop_sessions_wait c (Some t) false tests w = (Sleeps, a, tests', w') /\
  t < w_now w' /\ w_between w = [] /\ 0 <= w_now w /\ is_u64 t.
Proof.
  exists client, ((1000 + 2160000) * M32), one, (starting [] [Clock (3000000 * M32)]).
  eexists. eexists. eexists. split; [apply one_reached|]. split; [reflexivity|]. split; [reflexivity|]. split; [reflexivity|]. split; [cbn; lia|red; lia].
Qed.
Print Assumptions C91_oversleeps_refuted.

(** "If wake_time is non-null, retn_on_intr is not used" (owamp.h): with both, and with a wake-up time in the past, a set flag makes it return 2. *)
Theorem C91_flag_with_time_refuted : exists c t tests w a tests' w',
  reached tests w /\ t <= w_now w /\ stop_sessions_wait c (Some t) true tests w = (Returns 2 ErrOK, a, tests', w') /\
  result_of (stop_sessions_wait c (Some t) false tests w) = Returns 1 ErrOK.
Proof.
  exists client, 0, one, (happen Interrupt (starting [] [])).
  eexists. eexists. eexists. split; [apply R_happen; apply one_reached|]. split; [cbn; lia|]. split; reflexivity.
Qed.
Print Assumptions C91_flag_with_time_refuted.

(** ** C92: waiting ends when the sessions are over *)

(** A wait does not sleep while all local sessions are over or one has failed, provided that no session ends between the function's own
    system calls (asking for the status, then poll).  Missing: such an end is not noticed, see C92_lost_wakeup_refuted. *)
Theorem C92_wait_ends_partial : forall c wake intr tests w a tests' w',
  reached tests w -> no_end (w_between w) -> stop_sessions_wait c wake intr tests w = (Sleeps, a, tests', w') ->
  (c_twoway c && c_server c = false ->
   (exists i, In i (children tests) /\ w_kids w' i = Alive) /\ (forall i, In i (children tests) -> outcome (w_kids w' i) <= 0)) /\
  (c_twoway c && c_server c = true ->
   (exists i, In i (children tests) /\ w_kids w' i = Alive) \/ (forall i, In i (children tests) -> outcome (w_kids w' i) <= 0)).
Proof.
  intros c wake intr tests w a tests' w' R Q E. apply reached_coherent in R.
  destruct (wait_ok _ _ _ _ _ _ _ _ _ E R) as (_ & _ & _ & _ & _ & _ & _ & _ & _ & _ & H).
  destruct (H eq_refl) as (_ & X). specialize (X Q). unfold calm in X. split; intros T; rewrite T in X; exact X.
Qed.
Print Assumptions C92_wait_ends_partial.

Example C92_nonvacuous : exists a tests w',
  stop_sessions_wait client None false two (starting [[Other]] [Ends 0 (Exited 0); Clock (2000 * M32)]) = (Sleeps, a, tests, w') /\
  no_end [[Other]] /\ w_kids w' 1 = Alive.
Proof. eexists. eexists. eexists. split; [reflexivity|]. split; [repeat constructor|reflexivity]. Qed.

(** The end of a session between the last question for the status and poll() is not noticed: the function sleeps although the only
    session is over, until the other side sends something. *)
Theorem C92_lost_wakeup_refuted : exists c tests w a tests' w',
  reached tests w /\ stop_sessions_wait c None false tests w = (Sleeps, a, tests', w') /\
  children tests <> [] /\ (forall i, In i (children tests) -> w_kids w' i = Exited 0).
Proof.
  exists client, one, (starting [[]; [Ends 0 (Exited 0)]] []).
  eexists. eexists. eexists. split; [apply one_reached|]. split; [reflexivity|]. split; [discriminate|].
  intros i [<-|[]]. reflexivity.
Qed.
Print Assumptions C92_lost_wakeup_refuted.

(** ** C93: this side stops the sessions exactly when they are over or one has failed *)
Theorem C93_stops_only_then : forall c wake intr tests w a tests' w',
  reached tests w -> stop_sessions_wait c wake intr tests w = (Stops, a, tests', w') ->
  (forall i, In i (children tests) -> w_kids w' i <> Alive) \/ (exists i, In i (children tests) /\ 0 < outcome (w_kids w' i)).
Proof.
  intros c wake intr tests w a tests' w' R E. apply reached_coherent in R.
  destruct (wait_ok _ _ _ _ _ _ _ _ _ E R) as (_ & _ & _ & _ & H & _). exact (proj2 (H eq_refl)).
Qed.
Print Assumptions C93_stops_only_then.

Theorem C93_stops_then : forall c wake intr tests w,
  reached tests w -> c_sock c = true -> c_twoway c && c_server c = false ->
  (forall i, In i (children tests) -> w_kids w i <> Alive) \/ (exists i, In i (children tests) /\ 0 < outcome (w_kids w i)) ->
  result_of (stop_sessions_wait c wake intr tests w) = Stops.
Proof.
  intros c wake intr tests w R S T H. apply reached_coherent in R. unfold stop_sessions_wait. rewrite S. cbn [negb].
  destruct (sessions_active tests w) as [[[n a1] t1] w1] eqn:A.
  destruct (sessions_active_ok _ _ _ _ _ _ A R) as (A1 & A2 & A3 & A4 & A5 & A6 & A7 & A8 & A9 & A10 & A11).
  rewrite T. cbn [andb negb].
  assert (X : (n =? 0) || negb (a1 =? 0) = true).
  { destruct (Z.eqb_spec n 0) as [N|N]; [reflexivity|]. destruct (Z.eqb_spec a1 0) as [Z0|Z0]; [|reflexivity]. exfalso.
    destruct H as [H|(i & I & H)].
    - destruct (A9 N) as (i & I & K). exact (H i I K).
    - specialize (A10 Z0 i I). lia. }
  rewrite X. reflexivity.
Qed.
Print Assumptions C93_stops_then.

(** A server of two-way sessions never stops them by itself; it returns 0 without a message only if all are over and one has failed. *)
Theorem C93_reflector : forall c wake intr tests w res a tests' w',
  reached tests w -> c_twoway c && c_server c = true -> stop_sessions_wait c wake intr tests w = (res, a, tests', w') ->
  res <> Stops /\ (forall err, res = Returns 0 err ->
    (forall i, In i (children tests) -> w_kids w' i <> Alive) /\ (exists i, In i (children tests) /\ 0 < outcome (w_kids w' i))).
Proof.
  intros c wake intr tests w res a tests' w' R T E. apply reached_coherent in R.
  destruct (wait_ok _ _ _ _ _ _ _ _ _ E R) as (_ & _ & _ & _ & H & H0 & _). split.
  - intros X. destruct (H X) as (Y & _). congruence.
  - intros err X. destruct (H0 err X) as (_ & _ & Y1 & Y2). split; assumption.
Qed.
Print Assumptions C93_reflector.

Example C93_nonvacuous :
  result_of (stop_sessions_wait client None false two (starting [] [Ends 0 (Exited 0); Ends 1 (Exited 0)])) = Stops /\
  result_of (stop_sessions_wait client None false two (starting [] [Ends 0 Killed])) = Stops /\
  result_of (stop_sessions_wait client None false two (starting [] [Ends 0 (Exited 0)])) = Sleeps /\
  result_of (stop_sessions_wait reflector None false two (starting [] [Ends 0 (Exited 0); Ends 1 (Exited 2)])) = Returns 0 ErrOK /\
  result_of (stop_sessions_wait reflector None false two (starting [] [Ends 0 (Exited 0); Ends 1 (Exited 0)])) = Sleeps.
Proof. repeat split. Qed.

(** ** C94: the status of sessions *)

(** OWPSessionsActive returns the number of local sessions that run and the largest acceptance value of the others.  If processes end meanwhile the
    number lies between those at its end and at its beginning. *)
Theorem C94_active : forall tests w n a tests' w', reached tests w -> sessions_active tests w = (n, a, tests', w') ->
  Z.of_nat (length (running tests w')) <= n <= Z.of_nat (length (running tests w)) /\
  0 <= a /\ (forall i, In i (children tests) -> outcome (w_kids w i) <= a) /\
  (a = 0 \/ exists i, In i (children tests) /\ outcome (w_kids w' i) = a) /\
  children tests' = children tests.
Proof.
  intros tests w n a tests' w' R E. apply reached_coherent in R. unfold sessions_active in E.
  destruct (active_ok _ _ _ _ _ _ _ _ E R ltac:(lia)) as (H1 & H2 & H3 & H4 & H5 & H6 & H7 & H8 & H9 & H10 & _).
  unfold running. unfold runs in H6. rewrite !Z.add_0_l in H6. auto.
Qed.
Print Assumptions C94_active.

(** OWPSessionStatus succeeds exactly for the sessions of this connection that run here, and stores their status in the caller's variable.
    Missing: the variable must be 0 before, see C94_status_refuted. *)
Theorem C94_status_partial : forall tests w sid b a tests' w', reached tests w -> session_status tests sid 0 w = (b, a, tests', w') ->
  (b = true -> exists e, In (mkSess sid (Some e)) tests /\ a = outcome (w_kids w' (e_child e))) /\
  (b = false -> match find (fun s => s_sid s =? sid) tests with Some s => s_end s = None | None => True end).
Proof.
  intros tests w sid b a tests' w' R E. apply reached_coherent in R.
  destruct (status_ok _ _ _ _ _ _ _ _ E R) as (_ & _ & _ & _ & H1 & H2). split.
  - intros B. destruct (H1 B) as (e & I & X). exists e. split; [exact I|exact X].
  - intros B. destruct (H2 B) as (_ & _ & _ & r & <- & X). exact X.
Qed.
Print Assumptions C94_status_partial.

(** Once a session is over its status does not change. *)
Theorem C94_final : forall tests w c wake intr res a tests' w' i, reached tests w ->
  stop_sessions_wait c wake intr tests w = (res, a, tests', w') -> 0 <= outcome (w_kids w i) -> w_kids w' i = w_kids w i.
Proof.
  intros tests w c wake intr res a tests' w' i R E O. apply reached_coherent in R.
  destruct (wait_ok _ _ _ _ _ _ _ _ _ E R) as (_ & _ & (G & _) & _). apply G. apply outcome_over. exact O.
Qed.
Print Assumptions C94_final.

Example C94_nonvacuous :
  fst (fst (sessions_active two (starting [[Ends 0 (Exited 3)]] []))) = (1, 3) /\
  fst (fst (session_status two 7 0 (starting [[Ends 0 (Exited 3)]] []))) = (true, 3) /\
  fst (fst (session_status two 9 0 (starting [[Ends 0 (Exited 3)]] []))) = (true, -1) /\
  fst (fst (session_status two 8 0 (starting [] []))) = (false, 0).
Proof. repeat split. Qed.

(** A variable that is not 0 before, for instance that of an earlier question, is not changed although the function succeeds: a session that
    was found running is reported to run forever. *)
Theorem C94_status_refuted : exists tests w b a tests' w' e,
  reached tests w /\ session_status tests 7 (-1) w = (b, a, tests', w') /\ b = true /\
  In (mkSess 7 (Some e)) tests /\ outcome (w_kids w' (e_child e)) = 0 /\ a = -1.
Proof.
  exists one, (happen (Ends 0 (Exited 0)) (starting [] [])). do 4 eexists. exists (mkE (-1) 0).
  split; [apply R_happen; apply one_reached|]. split; [reflexivity|]. split; [reflexivity|]. split; [left; reflexivity|]. split; reflexivity.
Qed.
Print Assumptions C94_status_refuted.

(** ** C95: after waiting the connection can be used for new sessions *)

(** Only a server of two-way sessions returns 0 with the sessions still on the connection (OWPStopSessions and the other end of the
    function free them, api.c 1850-1863 and 2118-2124).  Missing: that case, see C95_usable_refuted. *)
Theorem C95_usable_partial : forall c wake intr tests w err a tests' w',
  reached tests w -> stop_sessions_wait c wake intr tests w = (Returns 0 err, a, tests', w') -> c_twoway c = true /\ c_server c = true /\ a <> 0.
Proof.
  intros c wake intr tests w err a tests' w' R E.
  assert (H := E). apply reached_coherent in R. apply wait_ok in H; [|exact R]. destruct H as (_ & _ & _ & _ & _ & H & _).
  destruct (H err eq_refl) as (_ & T & _). apply andb_prop in T. destruct T as (T1 & T2). split; [exact T1|]. split; [exact T2|]. intros ->.
  clear H. unfold stop_sessions_wait in E. destruct (negb (c_sock c)); [discriminate|].
  destruct (sessions_active tests w) as [[[n a1] t1] w1] eqn:A. rewrite T1, T2 in E. cbn [andb negb] in E.
  destruct ((n =? 0) && negb (a1 =? 0)) eqn:B; [injection E as _ E2 _ _; subst a1; rewrite andb_comm in B; discriminate B|].
  destruct (intr && w_flag w1); [discriminate|].
  assert (G : forall fuel tm a2 t2 w2, again fuel c wake intr tm a2 t2 w2 = (Returns 0 err, 0, tests', w') -> False).
  { clear -T1 T2. induction fuel as [|fuel IH]; intros tm a2 t2 w2 E; [discriminate|]. cbn [again] in E.
    destruct (poll tm w2) as [[[| |]|] w3]; try discriminate E.
    destruct (_ || _); [discriminate E|]. destruct (sessions_active t2 w3) as [[[n4 a4] t4] w4].
    destruct (negb (n4 =? 0) && (a4 =? 0)); [eapply IH; exact E|]. rewrite T1, T2 in E. cbn [andb] in E.
    destruct (sessions_active t4 w4) as [[[n5 a5] t5] w5]. destruct ((n5 =? 0) && negb (a5 =? 0)) eqn:B; [|eapply IH; exact E].
    injection E as _ E2 _ _. subst a5. rewrite andb_comm in B. discriminate B. }
  destruct wake as [t|]; [destruct (negb (w_gtod (tick w1))); [discriminate E|]|]; eapply G; exact E.
Qed.
Print Assumptions C95_usable_partial.

(** A reflector that failed stays on the connection: the function returns 0, which means that the connection is ready for new sessions, but
    no sessions can be started any more. *)
Theorem C95_usable_refuted : exists tests w a tests' w',
  reached tests w /\ start_sessions tests = true /\ stop_sessions_wait reflector None false tests w = (Returns 0 ErrOK, a, tests', w') /\
  forall more, start_sessions (more ++ tests') = false.
Proof.
  exists one, (starting [] [Ends 0 (Exited 2)]). do 3 eexists. split; [apply one_reached|]. split; [reflexivity|]. split; [reflexivity|].
  intros more. unfold start_sessions. rewrite forallb_app. apply andb_false_r.
Qed.
Print Assumptions C95_usable_refuted.

(** ** C96: a session that is started runs *)

(** The process of a session waits until it is told to start, then it runs the session and nothing but the session decides on its acceptance
    value.  Missing: it must get the processor before it is told to stop, see C96_rejected_refuted. *)
Theorem C96_runs_partial : forall before between after,
  ~ In Stop (before ++ between) -> ~ In Cancel (before ++ between) ->
  let p := p_phase (moves (before ++ Start :: between ++ Run :: after) forked) in
  p = Running \/ exists c, p = Over c /\ In (Finish c) (before ++ between ++ after).
Proof.
  intros before between after NS NC.
  assert (INV : forall l p, ~ In Stop l -> ~ In Cancel l -> p_usr2 p = false -> p_int p = false -> (forall c, p_phase p <> Over c) ->
     let q := moves l p in (exists c, In (Finish c) l /\ p_phase q = Over c) \/
       (p_usr2 q = false /\ p_int q = false /\ (forall c, p_phase q <> Over c) /\ (p_usr1 p = true -> p_usr1 q = true))).
  { induction l as [|s l IH]; intros p A B U I O; cbv zeta; [right; auto|]. change (moves (s :: l) p) with (moves l (move s p)).
    assert (A' : ~ In Stop l) by (intros X; apply A; right; exact X). assert (B' : ~ In Cancel l) by (intros X; apply B; right; exact X).
    assert (FIX : forall c l q, p_phase q = Over c -> moves l q = q).
    { clear. induction l as [|s l IH]; intros q Q; [reflexivity|]. cbn. assert (M : move s q = q) by (unfold move; rewrite Q; destruct s; reflexivity).
      rewrite M. apply IH. exact Q. }
    assert (STEP : (exists c, s = Finish c /\ p_phase (move s p) = Over c) \/
      (p_usr2 (move s p) = false /\ p_int (move s p) = false /\ (forall c, p_phase (move s p) <> Over c) /\ (p_usr1 p = true -> p_usr1 (move s p) = true))).
    { unfold move. destruct (p_phase p) as [| |c] eqn:P; [| |destruct (O c eq_refl)];
        destruct s as [| | | |c]; try (destruct A; left; reflexivity); try (destruct B; left; reflexivity);
        try (right; cbn; rewrite ?U, ?I, ?P; repeat split; auto; congruence); [|left; exists c; split; reflexivity].
      rewrite U, I. cbn. right. destruct (p_usr1 p) eqn:U1; cbn; rewrite ?U, ?I, ?U1, ?P; repeat split; auto; congruence. }
    destruct STEP as [(c & -> & F)|(S1 & S2 & S3 & S4)].
    - left. exists c. split; [left; reflexivity|]. rewrite (FIX c); [exact F|exact F].
    - destruct (IH (move s p) A' B' S1 S2 S3) as [(c & J1 & J2)|(J1 & J2 & J3 & J4)]; [left; exists c; split; [right; exact J1|exact J2]|]. right. split; [exact J1|]. split; [exact J2|]. split; [exact J3|]. auto. }
  assert (RUN : forall l p, p_phase p = Running -> p_phase (moves l p) = Running \/ exists c, p_phase (moves l p) = Over c /\ In (Finish c) l).
  { induction l as [|s l IH]; intros p P; [left; exact P|]. change (moves (s :: l) p) with (moves l (move s p)).
    assert (FIX : forall c l q, p_phase q = Over c -> moves l q = q).
    { clear. induction l as [|s l IH]; intros q Q; [reflexivity|]. cbn. assert (M : move s q = q) by (unfold move; rewrite Q; destruct s; reflexivity).
      rewrite M. apply IH. exact Q. }
    destruct (p_phase (move s p)) as [| |c] eqn:M.
    - exfalso. unfold move in M. rewrite P in M. destruct s; cbn in M; congruence.
    - destruct (IH _ M) as [J|(c & J1 & J2)]; [left; exact J|right; exists c; split; [exact J1|right; exact J2]].
    - right. exists c. rewrite (FIX c); [|exact M]. split; [exact M|]. left. unfold move in M. rewrite P in M. destruct s; cbn in M; congruence. }
  assert (APP : forall a b p, moves (a ++ b) p = moves b (moves a p)) by (intros a b p; unfold moves; apply fold_left_app).
  assert (FIX : forall c l q, p_phase q = Over c -> moves l q = q).
  { clear. induction l as [|s l IH]; intros q Q; [reflexivity|]. cbn. assert (M : move s q = q) by (unfold move; rewrite Q; destruct s; reflexivity).
    rewrite M. apply IH. exact Q. }
  cbv zeta. rewrite APP. change (Start :: between ++ Run :: after) with ([Start] ++ between ++ Run :: after). rewrite !APP.
  change (moves (Run :: after) ?q) with (moves after (move Run q)).
  destruct (INV before forked) as [(c & J1 & J2)|(J1 & J2 & J3 & _)]; try reflexivity; try discriminate.
  { intros X. apply NS. apply in_or_app. left. exact X. }
  { intros X. apply NC. apply in_or_app. left. exact X. }
  { right. exists c. change (moves [Start] ?q) with (move Start q).
    set (q := moves before forked) in *. assert (M : move Start q = q) by (unfold move; rewrite J2; reflexivity). rewrite M. rewrite (FIX c between q J2).
    assert (M' : move Run q = q) by (unfold move; rewrite J2; reflexivity). rewrite M', (FIX c after q J2). split; [exact J2|].
    apply in_or_app. left. exact J1. }
  set (q := moves before forked) in *. clearbody q.
  change (moves [Start] q) with (move Start q).
  destruct (INV between (move Start q)) as [(c & K1 & K2)|(K1 & K2 & K3 & K4)].
  { intros X. apply NS. apply in_or_app. right. exact X. }
  { intros X. apply NC. apply in_or_app. right. exact X. }
  { unfold move. destruct (p_phase q); exact J1. }
  { unfold move. destruct (p_phase q); exact J2. }
  { intros c. unfold move. specialize (J3 c). destruct (p_phase q) eqn:P; cbn; congruence. }
  { right. exists c. set (q2 := moves between (move Start q)) in *.
    assert (M' : move Run q2 = q2) by (unfold move; rewrite K2; reflexivity). rewrite M', (FIX c after q2 K2). split; [exact K2|].
    apply in_or_app. right. apply in_or_app. left. exact K1. }
  assert (U : p_usr1 (move Start q) = true).
  { unfold move. destruct (p_phase q) eqn:P; try reflexivity. destruct (J3 code eq_refl). }
  specialize (K4 U). set (q2 := moves between (move Start q)) in *. clearbody q2.
  assert (R : p_phase (move Run q2) = Running).
  { unfold move. destruct (p_phase q2) as [| |c] eqn:P; [|exact P|destruct (K3 c eq_refl)]. rewrite K1, K2, K4. reflexivity. }
  destruct (RUN after _ R) as [J|(c & J4 & J5)]; [left; exact J|right; exists c; split; [exact J4|]]. apply in_or_app. right. apply in_or_app. right. exact J5.
Qed.
Print Assumptions C96_runs_partial.

(** No session runs before it is started. *)
Theorem C96_not_before : forall l, p_phase (moves l forked) = Running -> In Start l.
Proof.
  intros l. assert (H : forall l p, p_usr1 p = false -> p_phase p <> Running -> ~ In Start l -> p_phase (moves l p) <> Running).
  { induction l0 as [|s l0 IH]; intros p U P N; [exact P|]. change (moves (s :: l0) p) with (moves l0 (move s p)). apply IH.
    - unfold move. destruct (p_phase p), s; cbn; auto; try (destruct N; left; reflexivity). rewrite U. destruct (p_int p || p_usr2 p); auto.
    - unfold move. destruct (p_phase p) eqn:Q, s; cbn; try congruence. rewrite U. destruct (p_int p || p_usr2 p); cbn; congruence.
    - intros X. apply N. right. exact X. }
  intros R. destruct (in_dec (fun a b : step => ltac:(decide equality; apply Z.eq_dec) : {a = b} + {a <> b}) Start l) as [I|I]; [exact I|].
  exfalso. apply (H l forked); auto. discriminate.
Qed.
Print Assumptions C96_not_before.

Example C96_nonvacuous :
  p_phase (moves ([Run] ++ Start :: [Run; Run] ++ Run :: [Stop; Finish 0]) forked) = Over 0 /\
  p_phase (moves [Run; Start; Run] forked) = Running.
Proof. split; reflexivity. Qed.

(** A session that is stopped in the ordinary way before its process has noticed the start does not run, and is reported as rejected. *)
Theorem C96_rejected_refuted : exists l, l = [Start; Stop; Run] /\ p_phase (moves l forked) = Over CNTRL_REJECT.
Proof. eexists. split; reflexivity. Qed.
Print Assumptions C96_rejected_refuted.
