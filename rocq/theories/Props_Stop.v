(** Property theorems about the Stop-Sessions exchange: C16 and C29 (wire), C30, C66, C67.
    Vocabulary: Stop_Spec.v and Control_Spec.v.  [clean] and [save] stand for what the file system
    answers while a session file is cleaned up and completed. *)
From Coq Require Import ZArith List Bool Lia Permutation.
From Verif Require Import Base BaseLemmas Sched_Model Wire_Model Wire_Spec Wire_Proofs Control_Model Control_Spec Control_Proofs
  Control_Integrity Stop_Model Stop_Spec Stop_Proofs Stop_Sound Stop_Exchange Control_Fixed Toy.
Import ListNotations.
Open Scope Z_scope.

(** ** C16, C29: every report of a sender arrives at the other side unchanged, and is stored in the
    file of the session it belongs to: next sequence number, number of ranges, the ranges in order *)
Theorem C29_wire : forall E D H, block_cipher E D -> digest20 H -> forall clean save c c' s a ts ts' tests o rest,
  wf c -> wf s -> quiet s -> linked c s -> twoway c = false -> st s = StRequest + StTest ->
  accept_code a -> Forall reported ts -> Z.of_nat (length ts) < 2^32 ->
  all_open tests -> Permutation (map t_sid (receivers tests)) (map t_sid (senders ts)) ->
  Forall (fun t => clean (t_sid t) (s_next (arrived t)) = true /\ save (t_sid t) = true) (senders ts) ->
  write_stop E H c a (Z.of_nat (length (senders ts))) ts = (ErrOK, ts', c') -> sent c c' o -> inp s = o ++ rest ->
  exists s1 tests' s', read_request_type D s = (3, s1) /\
    read_stop D H clean save s1 tests = (ErrOK, a, tests', map arrived (senders ts), s') /\
    Permutation tests tests' /\ agree c' s' rest /\ st c' = st c /\ st s' = StRequest + StTest.
Proof. intros E D H BC HL clean save. exact (stop_roundtrip E D H BC HL clean save). Qed.
Print Assumptions C29_wire.

(** the same as an instance of C16 *)
Theorem C16_stop_sessions : forall E D H, block_cipher E D -> digest20 H -> forall clean save c c' s a ts ts' tests o rest,
  wf c -> wf s -> quiet s -> linked c s -> twoway c = false -> st s = StRequest + StTest ->
  accept_code a -> Forall reported ts -> Z.of_nat (length ts) < 2^32 ->
  all_open tests -> Permutation (map t_sid (receivers tests)) (map t_sid (senders ts)) ->
  Forall (fun t => clean (t_sid t) (s_next (arrived t)) = true /\ save (t_sid t) = true) (senders ts) ->
  write_stop E H c a (Z.of_nat (length (senders ts))) ts = (ErrOK, ts', c') -> sent c c' o -> inp s = o ++ rest ->
  exists s1 tests' s', read_request_type D s = (3, s1) /\
    read_stop D H clean save s1 tests = (ErrOK, a, tests', map arrived (senders ts), s') /\
    Permutation tests tests' /\ agree c' s' rest.
Proof.
  intros E D H BC HL clean save c c' s a ts ts' tests o rest W1 W2 Q L T S A R N O P F W So I.
  destruct (stop_roundtrip E D H BC HL clean save c c' s a ts ts' tests o rest W1 W2 Q L T S A R N O P F W So I)
    as (s1 & t1 & s2 & X1 & X2 & X3 & X4 & _). exists s1, t1, s2. auto.
Qed.
Print Assumptions C16_stop_sessions.

(** two reports, of 2 and 1 ranges, sent over an encrypted connection *)
Definition rep (next : Z) (l : list (Z * Z)) : list Z :=
  be_enc 4 next ++ be_enc 4 (Z.of_nat (length l)) ++ concat (map (fun p => be_enc 4 (fst p) ++ be_enc 4 (snd p)) l).
Definition sender_of (x : Z) (l : list Z) : tsess := mkTS (repeat x 16) (Some (mkEP true l (Z.of_nat (length l)) true CNTRL_ACCEPT ErrOK)).
Definition receiver_of (x : Z) : tsess := mkTS (repeat x 16) (Some (mkEP false [] 0 true CNTRL_ACCEPT ErrOK)).
Definition yes1 (x : list Z) : bool := true.
Definition yes2 (x : list Z) (n : Z) : bool := true.
(** what the reader of a stop message does with the message written for [ts] *)
Definition stop_of (num : Z) (ts tests : list tsess) (damage : list Z -> list Z) :=
  let '(_, _, c') := write_stop toyE toyH (toy (StRequest + StTest) MODE_ENCR false []) CNTRL_ACCEPT num ts in
  let s1 := snd (read_request_type toyE (toy (StRequest + StTest) MODE_ENCR false (damage (outp c')))) in
  (s1, read_stop toyE toyH yes2 yes1 s1 tests).

Example C29_wire_example :
  let ts := [sender_of 1 (rep 100 [(3,5);(90,95)]); receiver_of 9; sender_of 2 (rep 50 [(7,7)])] in
  Forall reported ts /\ Permutation (map t_sid (receivers [receiver_of 2; sender_of 9 []; receiver_of 1])) (map t_sid (senders ts)) /\
  exists tests' s', snd (stop_of 2 ts [receiver_of 2; sender_of 9 []; receiver_of 1] (fun x => x)) =
    (ErrOK, CNTRL_ACCEPT, tests',
     [mkStored (repeat 1 16) 100 (concat (map (be_enc 4) [3;5;90;95])) (Some 2); mkStored (repeat 2 16) 50 (concat (map (be_enc 4) [7;7])) (Some 1)], s').
Proof.
  cbv zeta. split; [|split].
  - apply Forall_cons; [|apply Forall_cons; [|apply Forall_cons; [|apply Forall_nil]]].
    + split; [reflexivity|]. intros _. split; [reflexivity|]. split; [|split; [reflexivity|]].
      * apply Forall_forall. intros x I. vm_compute in I. intuition lia.
      * intros k K. change (report_count _) with 2 in K. assert (k = 0 \/ k = 1)%nat as [-> | ->] by lia; vm_compute; discriminate.
    + split; [reflexivity|]. discriminate.
    + split; [reflexivity|]. intros _. split; [reflexivity|]. split; [|split; [reflexivity|]].
      * apply Forall_forall. intros x I. vm_compute in I. intuition lia.
      * intros k K. change (report_count _) with 1 in K. assert (k = 0)%nat as -> by lia; vm_compute; discriminate.
  - vm_compute. apply perm_swap.
  - eexists. eexists. vm_compute. reflexivity.
Qed.

(** ** C30: what an accepted stop message implies.  Partial: the sessions it names are receivers of
    this side, each named once, as many as it announces; every range begins not after its end; the
    accept value is a valid one.  Missing: that all receivers are named, that the ranges are in
    order and below the next sequence number (refuted below). *)
Theorem C30_accepted_partial : forall D H, blocks16 D -> forall clean save s tests a tests' fs s',
  length (msg s) = 400%nat -> length (riv s) = 16%nat -> twoway s = false ->
  read_stop D H clean save s tests = (ErrOK, a, tests', fs, s') ->
  exists left, all_open tests /\ accept_code a /\
    Permutation (map t_sid (receivers tests)) (map s_sid fs ++ map t_sid left) /\
    Permutation tests (tests' ++ left) /\
    length fs = Z.to_nat (field (msg s) 4 4) /\
    Forall (fun f => exists d, s_done f = Some d /\
      length (s_skips f) = (8 * Z.to_nat d)%nat /\
      (forall j, (j < Z.to_nat d)%nat -> field (s_skips f) (8 * j) 4 <= field (s_skips f) (8 * j + 4) 4) /\
      clean (s_sid f) (s_next f) = true /\ save (s_sid f) = true) fs.
Proof.
  intros D H BD clean save s tests a tests' fs s' W1 W2 Tw R.
  destruct (stop_sound D BD clean save H s tests a tests' fs s' (conj W1 W2) Tw R) as (l & A & B & C & P & F & N).
  exists l. split; [exact A|]. split; [exact B|]. split; [exact C|]. split; [exact P|]. split.
  - rewrite N. unfold field. rewrite number_be. reflexivity.
  - eapply Forall_impl; [|exact F]. intros f (d & X1 & (X2 & X3) & X4 & X5). exists d. auto.
Qed.
Print Assumptions C30_accepted_partial.

Example C30_accepted_example :
  let '(s, r) := stop_of 1 [sender_of 1 (rep 100 [(3,5);(90,95)])] [receiver_of 1; sender_of 2 []] (fun x => x) in
  length (msg s) = 400%nat /\ length (riv s) = 16%nat /\ twoway s = false /\ field (msg s) 4 4 = 1 /\
  exists tests' fs s', r = (ErrOK, CNTRL_ACCEPT, tests', fs, s') /\ length fs = 1%nat.
Proof. vm_compute. repeat split; auto. do 3 eexists. split; reflexivity. Qed.

(** For the usual case, one received session and a message announcing at least one, the message
    names exactly that session. *)
Theorem C30_single_partial : forall D H, blocks16 D -> forall clean save s tests r a tests' fs s',
  length (msg s) = 400%nat -> length (riv s) = 16%nat -> twoway s = false ->
  receivers tests = [r] -> 0 < field (msg s) 4 4 ->
  read_stop D H clean save s tests = (ErrOK, a, tests', fs, s') ->
  map s_sid fs = [t_sid r] /\ field (msg s) 4 4 = 1 /\ Permutation tests tests'.
Proof.
  intros D H BD clean save s tests r a tests' fs s' W1 W2 Tw Rv Pos R.
  destruct (C30_accepted_partial D H BD clean save s tests a tests' fs s' W1 W2 Tw R) as (l & _ & _ & P & P2 & N & _).
  rewrite Rv in P. cbn [map] in P. pose proof (Permutation_length P) as PL. rewrite app_length, !map_length in PL. cbn [length] in PL.
  assert (LF: (length fs >= 1)%nat) by lia.
  assert (length l = 0)%nat by lia. destruct l; [|discriminate]. cbn [map] in P. rewrite app_nil_r in P, P2.
  apply Permutation_length_1_inv in P. split; [exact P|]. split; [|exact P2]. lia.
Qed.
Print Assumptions C30_single_partial.

(** C30 fails: an authenticated message that names no session at all is accepted although this
    side receives one; the file of that session is not completed and the session is no longer in the
    list of the connection (protocol.c 2585 looks only behind the last session named). *)
Theorem C30_all_named_refuted : exists E D H clean save s tests a tests' fs s',
  block_cipher E D /\ digest20 H /\ wf s /\ twoway s = false /\ mode s = MODE_ENCR /\
  all_open tests /\ receivers tests <> [] /\
  read_stop D H clean save s tests = (ErrOK, a, tests', fs, s') /\ fs = [] /\ tests' = [].
Proof.
  destruct (stop_of 0 [] [receiver_of 1] (fun x => x)) as [s r] eqn:K.
  exists toyE, toyE, toyH, yes2, yes1, s, [receiver_of 1]. vm_compute in K. inversion K; subst. do 4 eexists.
  split; [exact toy_cipher|]. split; [exact toy_digest|]. split; [repeat split|]. split; [reflexivity|]. split; [reflexivity|].
  split; [constructor; [discriminate|constructor]|]. split; [discriminate|]. split; [vm_compute; reflexivity|]. split; reflexivity.
Qed.
Print Assumptions C30_all_named_refuted.

(** C30 fails: ranges that go backwards, overlap, and lie above the next sequence number are accepted
    (prev_skip is never assigned; nothing compares a range with next_seqno). *)
Theorem C30_ranges_refuted : exists E D H clean save s tests a tests' f s',
  block_cipher E D /\ digest20 H /\ wf s /\ twoway s = false /\ mode s = MODE_ENCR /\ all_open tests /\
  read_stop D H clean save s tests = (ErrOK, a, tests', [f], s') /\ s_done f = Some 3 /\
  (* the second range ends before the first begins, the third overlaps the first and passes the end *)
  field (s_skips f) 12 4 < field (s_skips f) 0 4 /\
  field (s_skips f) 0 4 <= field (s_skips f) 16 4 <= field (s_skips f) 4 4 /\ s_next f <= field (s_skips f) 20 4.
Proof.
  destruct (stop_of 1 [sender_of 1 (rep 10 [(6,8);(2,3);(7,1000)])] [receiver_of 1] (fun x => x)) as [s r] eqn:K.
  exists toyE, toyE, toyH, yes2, yes1, s, [receiver_of 1]. vm_compute in K. inversion K; subst. do 4 eexists.
  split; [exact toy_cipher|]. split; [exact toy_digest|]. split; [repeat split|]. split; [reflexivity|]. split; [reflexivity|].
  split; [constructor; [discriminate|constructor]|]. split; [vm_compute; reflexivity|]. split; [reflexivity|].
  split; [vm_compute; reflexivity|]. split; [split; vm_compute; discriminate|]. vm_compute; discriminate.
Qed.
Print Assumptions C30_ranges_refuted.

(** ** C66 fails: the file of a session is marked complete before the authentication code of the
    stop message is checked; here the message is refused and the connection dropped, but the file
    has its skip records and is complete. *)
Theorem C66_refuted : exists E D H clean save s tests tests' f s',
  block_cipher E D /\ digest20 H /\ wf s /\ twoway s = false /\ mode s = MODE_ENCR /\ all_open tests /\
  read_stop D H clean save s tests = (ErrFATAL, CNTRL_FAILURE, tests', [f], s') /\ s_done f = Some 1.
Proof.
  destruct (stop_of 1 [sender_of 1 (rep 10 [(6,8)])] [receiver_of 1] (fun x => firstn 48 x ++ repeat 77 16)) as [s r] eqn:K.
  exists toyE, toyE, toyH, yes2, yes1, s, [receiver_of 1]. vm_compute in K. inversion K; subst. do 3 eexists.
  split; [exact toy_cipher|]. split; [exact toy_digest|]. split; [repeat split|]. split; [reflexivity|]. split; [reflexivity|].
  split; [constructor; [discriminate|constructor]|]. split; [vm_compute; reflexivity|]. reflexivity.
Qed.
Print Assumptions C66_refuted.

(** What does hold in the authenticated modes: OWPStopSessionsWait reports a completed exchange only if the message was read to its
    end and carried a valid authentication code over all its octets; and only files of sessions that this side receives, each at most
    once, are touched by any message at all.  Missing: that an unauthentic message leaves the files alone (refuted above). *)
Theorem C66_reported_partial : forall E D H, blocks16 D -> forall clean save s server tests w a err fs s',
  wf s -> ciphers s = true ->
  stop_wait E D H clean save s server tests w = (0, a, err, fs, s') ->
  exists n, coded H (hkey s) (rhm s) (incoming D s (n + 1)) (16 * n).
Proof.
  intros E D H BD clean save s server tests w a err fs s' W C R. unfold stop_wait in R.
  assert (F: forall err0 av num rd ts0 fs0 c0, wait_finish E H server w err0 av num rd ts0 fs0 c0 = (0, a, err, fs, s') -> ErrWARNING <= err0 /\ rd = true).
  { intros err0 av num rd ts0 fs0 c0 X. unfold wait_finish in X.
    destruct (Z.leb_spec ErrWARNING err0) as [G|G].
    - split; [exact G|]. destruct rd; auto. cbn [andb] in X. destruct (Z.min err0 (sw_free w) <? ErrWARNING); discriminate.
    - exfalso. rewrite andb_false_r in X. cbn [andb] in X. destruct (Z.ltb_spec (Z.min err0 (sw_free w)) ErrWARNING); [discriminate|lia]. }
  destruct (read_request_type D s) as [t c] eqn:RT.
  destruct ((t =? 3) && twoway c && negb server); [apply F in R; unfold ErrWARNING, ErrFATAL in *; lia|].
  destruct ((t =? 3) || (t =? ReqSockClose) || (t =? ReqSockIntr)); [|apply F in R; unfold ErrWARNING, ErrFATAL in *; lia].
  destruct (stop_send (twoway c) tests ErrOK CNTRL_ACCEPT 0) as [[[e1 av] num] ts1].
  destruct (Z.ltb_spec e1 ErrWARNING); [apply F in R; unfold ErrWARNING, ErrFATAL in *; lia|].
  destruct (Z.ltb_spec (Z.min e1 (sw_recv w)) ErrWARNING); [apply F in R; unfold ErrWARNING, ErrFATAL in *; lia|].
  destruct (negb (twoway s && negb server) && (t =? 3)) eqn:RS.
  2:{ apply F in R. destruct R as (_ & R). discriminate. }
  apply andb_prop in RS. destruct RS as (_ & T3). apply Z.eqb_eq in T3. subst t.
  destruct (read_stop D H clean save c ts1) as [[[[e a0] ts2] fs2] c2] eqn:RD.
  apply F in R. destruct R as (R & _).
  destruct (read_stop_rc D H clean save c ts1) as [X|X]; rewrite RD in X; cbn [fst] in X; [|subst e; unfold ErrWARNING, ErrFATAL in *; lia]. subst e.
  destruct (stop_checked D BD H clean save s c ts1 ErrOK a0 ts2 fs2 c2 W C RT RD) as ((n & K & _) & _); [reflexivity|]. exists n. exact K.
Qed.
(** Whatever the message, authentic or not, only files of sessions that this side receives are
    touched.  Missing: that an unauthentic message touches none (refuted above). *)
Theorem C66_files_partial : forall D H clean save s tests rc a tests' fs s',
  read_stop D H clean save s tests = (rc, a, tests', fs, s') ->
  exists left, Permutation (map t_sid (receivers tests)) (map s_sid fs ++ left).
Proof. exact read_stop_files. Qed.
Print Assumptions C66_reported_partial.
Print Assumptions C66_files_partial.
Example C66_case :
  let w := mkSW ErrOK CNTRL_ACCEPT true ErrOK in
  let c := toy (StRequest + StTest) MODE_ENCR false [] in
  let '(_, _, o) := write_stop toyE toyH c CNTRL_ACCEPT 1 [sender_of 1 (rep 100 [(3,5);(90,95)])] in
  let s := toy (StRequest + StTest) MODE_ENCR false (outp o) in
  wf s /\ ciphers s = true /\ exists fs s', stop_wait toyE toyE toyH yes2 yes1 s true [receiver_of 1] w = (0, CNTRL_ACCEPT, ErrOK, fs, s') /\ length fs = 1%nat.
Proof. vm_compute. repeat split. do 2 eexists. split; reflexivity. Qed.

(** ** C67: a stop exchange of a client (OWPStopSessions) with a server (OWPStopSessionsWait) *)
Theorem C67_exchange_partial : forall E D H, block_cipher E D -> digest20 H ->
  forall cleanc savec cleans saves c s tc ts wc ws oc os rcc ac fc c' r sa err fs s',
  wf c -> wf s -> quiet c -> quiet s -> linked c s -> linked s c -> twoway c = false ->
  st c = StRequest + StTest -> st s = StRequest + StTest ->
  Forall ends_well tc -> Forall ends_well ts -> Z.of_nat (length tc) < 2^32 -> Z.of_nat (length ts) < 2^32 ->
  Permutation (map t_sid (receivers ts)) (map t_sid (senders tc)) ->
  Permutation (map t_sid (receivers tc)) (map t_sid (senders ts)) ->
  (forall x n, cleanc x n = true) -> (forall x, savec x = true) -> (forall x n, cleans x n = true) -> (forall x, saves x = true) ->
  world_well wc -> world_well ws ->
  stop_sessions E D H cleanc savec c false CNTRL_ACCEPT tc wc = (rcc, ac, fc, c') ->
  stop_wait E D H cleans saves s true ts ws = (r, sa, err, fs, s') ->
  sent c c' oc -> sent s s' os -> inp s = oc -> inp c = os ->
  rcc = ErrOK /\ ac = CNTRL_ACCEPT /\ r = 0 /\ sa = CNTRL_ACCEPT /\ err = ErrOK /\
  fs = map arrived (senders tc) /\ Permutation fc (map arrived (senders ts)) /\
  st c' = StRequest /\ st s' = StRequest /\ linked c' s' /\ linked s' c' /\ wf c' /\ wf s'.
Proof. intros E D H BC HL. exact (stop_exchange E D H BC HL). Qed.
Print Assumptions C67_exchange_partial.

(** an exchange with one session in each direction; the outputs are the other side's inputs *)
Example C67_example :
  let w := mkSW ErrOK CNTRL_ACCEPT true ErrOK in
  let tc := [sender_of 1 (rep 100 [(3,5);(90,95)]); receiver_of 2] in
  let ts := [receiver_of 1; sender_of 2 (rep 50 [])] in
  world_well w /\ exists os oc c' s' fc fs,
    let c := toy (StRequest + StTest) MODE_ENCR false os in
    let s := toy (StRequest + StTest) MODE_ENCR false oc in
    wf c /\ wf s /\ quiet c /\ quiet s /\ linked c s /\ linked s c /\ length os = 64%nat /\ length oc = 80%nat /\
    stop_sessions toyE toyE toyH yes2 yes1 c false CNTRL_ACCEPT tc w = (ErrOK, CNTRL_ACCEPT, fc, c') /\
    stop_wait toyE toyE toyH yes2 yes1 s true ts w = (0, CNTRL_ACCEPT, ErrOK, fs, s') /\
    sent c c' oc /\ sent s s' os /\ fs = [mkStored (repeat 1 16) 100 (concat (map (be_enc 4) [3;5;90;95])) (Some 2)] /\ fc = [mkStored (repeat 2 16) 50 [] (Some 0)].
Proof.
  cbv zeta. split; [repeat split|].
  pose (w := mkSW ErrOK CNTRL_ACCEPT true ErrOK).
  pose (tc := [sender_of 1 (rep 100 [(3,5);(90,95)]); receiver_of 2]).
  pose (ts := [receiver_of 1; sender_of 2 (rep 50 [])]).
  pose (oc := outp (snd (stop_sessions toyE toyE toyH yes2 yes1 (toy (StRequest + StTest) MODE_ENCR false []) false CNTRL_ACCEPT tc w))).
  pose (os := outp (snd (stop_wait toyE toyE toyH yes2 yes1 (toy (StRequest + StTest) MODE_ENCR false oc) true ts w))).
  let x := eval vm_compute in os in exists x. let x := eval vm_compute in oc in exists x. do 4 eexists.
  split; [apply toy_wf|]. split; [apply toy_wf|]. split; [apply toy_quiet|]. split; [apply toy_quiet|].
  split; [repeat split|]. split; [repeat split|]. split; [reflexivity|]. split; [reflexivity|].
  split; [vm_compute; reflexivity|]. split; [vm_compute; reflexivity|]. split; [vm_compute; reflexivity|]. split; [vm_compute; reflexivity|].
  split; reflexivity.
Qed.

(** Missing from C67: two-way sessions.  A two-way client never gets a good answer out of
    OWPStopSessions, whatever its sessions and its peer do: the function returns a fatal error and the
    control connection is dropped (api.c 1808-1813 leaves readstop False, 1866-1868 fails). *)
Theorem C67_two_way_refuted : forall E D H clean save c a ts w rc a' fs c',
  twoway c = true -> stop_sessions E D H clean save c false a ts w = (rc, a', fs, c') ->
  rc < ErrWARNING /\ st c' = StInvalid.
Proof.
  intros E D H clean save c a ts w rc a' fs c' Tw R.
  assert (F: forall err aval b fs0 c0, (err < ErrWARNING \/ b = false) -> stop_finish w err aval b fs0 c0 = (rc, a', fs, c') -> rc < ErrWARNING /\ st c' = StInvalid).
  { intros err aval b fs0 c0 HB X. unfold stop_finish in X. destruct (Z.ltb_spec (Z.min err (sw_free w)) ErrWARNING) as [LT|GE].
    - inversion X; subst. split; [exact LT|reflexivity].
    - destruct HB as [HB|HB]; [lia|]. subst b. cbn [negb] in X. inversion X; subst. split; [reflexivity|reflexivity]. }
  unfold stop_sessions in R.
  destruct (stop_send (twoway c) ts ErrOK a 0) as [[[err av] num] ts1].
  destruct (Z.ltb_spec err ErrWARNING). { eapply F; [left|exact R]; auto. }
  destruct (write_stop E H c av num ts1) as [[e ts2] c2] eqn:WS.
  assert (Tw2: e < ErrWARNING \/ twoway c2 = true).
  { right. pose proof (write_stop_fixed E H c av num ts1) as X. rewrite WS in X. cbn [snd] in X. destruct X as (_ & X & _). congruence. }
  destruct (Z.ltb_spec (Z.min e err) ErrWARNING).
  - destruct (Z.ltb_spec (Z.min (sw_recv w) (Z.min e err)) ErrWARNING); eapply F; try exact R; auto.
  - destruct Tw2 as [|Tw2]; [lia|]. rewrite Tw2 in R. cbn [negb andb] in R.
    destruct (Z.ltb_spec (Z.min (sw_recv w) (Z.min e err)) ErrWARNING); eapply F; try exact R; auto.
Qed.
Print Assumptions C67_two_way_refuted.
