(** Property theorems about owping and owfetch: C123 (authentication), C124 (exit status), C125 (saved files), C126 (start time and loss timeout),
    C127 (output files), C128 (owfetch), C129 (numbers).  Vocabulary: Ping_Spec.v, Setup_Spec.v, Config_Spec.v *)
From Coq Require Import String.
From Coq Require Import ZArith List Bool Lia ZifyBool ZifyNat QArith Qround.
From Verif Require Import Base BaseLemmas Arith_Model Arith_Proofs Control_Model Control_Spec Setup_Model Setup_Spec Props_Setup Options_Model Options_Spec Config_Model Config_Spec Config_Proofs
  Receiver_Spec Sender_Spec Report_Model Report_Spec Report_Proofs Sched_Model Sched_Spec Sched_Proofs Props_Sched Ping_Model Ping_Spec Ping_Proofs.
Import ListNotations.
Open Scope Z_scope.

(** ** C123: a user who asks for authentication is not connected without *)

(** The modes asked for with -A are those of its letters; other letters are refused *)
Theorem C123_letters : forall twamp user src s,
  (forall m u pf, set_auth twamp user src (Some s) = Ask m u pf ->
    (contains m 1 <-> has_letter 79 s) /\ (contains m 2 <-> has_letter 65 s) /\ (contains m 4 <-> has_letter 69 s) /\ (contains m 8 <-> has_letter 77 s)) /\
  (user = None -> ((exists m, set_auth twamp user src (Some s) = Ask m None None) <->
     Forall (fun c => In c (chars "OoAaEe") \/ (twamp = true /\ In c (chars "Mm"))) s)).
Proof.
  intros twamp user src s.
  assert (BIT : forall m i, 0 <= i -> (contains m (2 ^ i) <-> Z.testbit m i = true)).
  { intros m i I. unfold contains. split.
    - intros E. apply (f_equal (fun x => Z.testbit x i)) in E. rewrite Z.land_spec, Z.pow2_bits_true in E by lia. destruct (Z.testbit m i); [reflexivity|discriminate E].
    - intros E. apply Z.bits_inj'. intros j J. rewrite Z.land_spec, Z.pow2_bits_eqb by lia. destruct (Z.eqb_spec i j) as [->|N]; [now rewrite E|now rewrite andb_false_r]. }
  split.
  - intros m u pf H. assert (P : parse_modes twamp 0 s = Some m).
    { unfold set_auth in H. destruct user as [v|]; [destruct (pass_phrase src) as [[p|]|]|]; try discriminate H; destruct (parse_modes twamp 0 s); try discriminate H; now injection H as ->. }
    apply parse_modes_spec in P. destruct P as (_ & A & B & C & D). rewrite Z.testbit_0_l in A, B, C, D.
    change 1 with (2 ^ 0). rewrite (BIT m 0) by lia. change (contains m 2) with (contains m (2 ^ 1)). rewrite (BIT m 1) by lia.
    change (contains m 4) with (contains m (2 ^ 2)). rewrite (BIT m 2) by lia. change (contains m 8) with (contains m (2 ^ 3)). rewrite (BIT m 3) by lia.
    rewrite A, B, C, D. repeat split; intros X; try tauto; destruct X as [X|X]; try discriminate X; exact X.
  - intros ->. pose proof (parse_modes_accepts twamp s 0) as P. cbn [set_auth].
    change (chars "OoAaEe") with [79; 111; 65; 97; 69; 101]. change (chars "Mm") with [77; 109]. rewrite <- P.
    unfold set_auth. split; intros (m & H).
    + destruct (parse_modes twamp 0 s) as [k|]; [now exists k|discriminate H].
    + exists m. now rewrite H.
Qed.
(** With -A and no O among its letters the connection is never open.  Missing: the same without -A, refuted below *)
Theorem C123_not_open_partial : forall twamp user src s m u pf E kdf c w c', set_auth twamp user src (Some s) = Ask m u pf -> ~ has_letter 79 s ->
  wf c -> cw_req w = m -> open_respond E kdf c w = OpenOK c' -> mode c' <> MODE_OPEN.
Proof.
  intros twamp user src s m u pf E kdf c w c' H N W R O X. destruct (C123_letters twamp user src s) as (L & _). destruct (L m u pf H) as (L1 & _).
  destruct (C20_client_mode E kdf c w c' W O) as (hk & (_ & _ & U & _) & _). rewrite R, X in U. apply N, L1, U.
Qed.
(** If the file with the pass phrases cannot be read, or there is no answer to the prompt, only an open connection is asked for *)
Theorem C123_fallback_refuted : forall twamp user src, src = Unreadable \/ src = NoAnswer -> set_auth twamp (Some user) src None = Ask MODE_OPEN None None /\
  forall E kdf c w c', wf c -> cw_req w = MODE_OPEN -> open_respond E kdf c w = OpenOK c' -> mode c' = MODE_OPEN.
Proof.
  intros twamp user src S. split; [destruct S as [-> | ->]; reflexivity|]. intros E kdf c w c' W R O.
  destruct (C20_client_mode E kdf c w c' W O) as (hk & (SM & _ & U & _) & _). rewrite R in U. unfold contains, MODE_OPEN in U.
  destruct SM as [X|[X|[X|X]]]; rewrite X in U; [exact X| | |]; vm_compute in U; discriminate U.
Qed.
(** With a pass phrase, but without -A, the server can make the connection open by offering nothing else *)
Theorem C123_downgrade_refuted : forall user pf, exists m, set_auth false (Some user) (Entry pf) None = Ask m (Some user) (Some pf) /\
  select_mode MODE_OPEN m true false (fun _ => (true, ErrOK)) = SelMode MODE_OPEN.
Proof. intros user pf. exists 7. split; reflexivity. Qed.
(** If the user is not in the file, a variable is used that was not set *)
Theorem C123_undefined_refuted : forall twamp user a, set_auth twamp (Some user) NoEntry a = Undefined.
Proof. reflexivity. Qed.

Example C123_case : set_auth false (Some (chars "alice")) (Entry (chars "secret")) (Some (chars "aE")) = Ask 6 (Some (chars "alice")) (Some (chars "secret")) /\
  set_auth false (Some (chars "alice")) Unreadable (Some (chars "E")) = Ask 4 None None /\ set_auth false None Unreadable (Some (chars "X")) = Stopped /\ ~ has_letter 79 (chars "aE").
Proof. split; [reflexivity|]. split; [reflexivity|]. split; [reflexivity|]. unfold has_letter. cbn. lia. Qed.

(** ** C124: the exit status of owping tells whether the test succeeded *)

(** The status is 0 exactly if the sessions asked for were accepted, started and completed, and there was at most one signal, which came while they ran; it is 2 only if there was a signal.
    With status 0, what was asked for is printed, if the data can be fetched and summarized.  Missing: that status 0 means this, refuted below *)
Theorem C124_status_partial : forall o e f, let r := owping o e f in
  (status r = 0 <-> completed o e /\ undisturbed e) /\ (status r = 0 \/ status r = 1 \/ status r = 2) /\
  (status r = 2 -> (exists k, signals e k <> 0%nat) \/ wait e = 2) /\
  (status r = 0 -> prints o -> (In ReportTo (reports r) <-> o_to o = true /\ open_to e = true /\ fetch e <> None /\ stats_to e = true) /\
     (In ReportFrom (reports r) <-> o_from o = true /\ stats_from e = true)).
Proof.
  intros o e f. unfold owping, completed, undisturbed, prints, CNTRL_ACCEPT. cbv zeta.
  assert (S0 : forall n, (0 <? n)%nat = true -> n <> 0%nat) by (intros n; destruct (Nat.ltb_spec 0 n); lia).
  destruct (connects e); cbn [negb]; [|cbn; split; [split; [discriminate|intros ((X & _) & _); discriminate]|split; [auto|split; discriminate]]].
  destruct (has_time e); cbn [negb]; [|cbn; split; [split; [discriminate|intros ((_ & X & _) & _); discriminate]|split; [auto|split; discriminate]]].
  destruct (0 <? signals e 0)%nat eqn:G0; [cbn; split; [split; [discriminate|intros (_ & X & _); lia]|split; [auto|split; [intros _; left; exists 0%nat; lia|discriminate]]]|].
  destruct (o_to o && negb (request_to e)) eqn:G1; [cbn; split; [split; [discriminate|intros ((_ & _ & X & _) & _)]|split; [auto|split; discriminate]]|].
  { destruct (o_to o); [rewrite X in G1 by reflexivity|]; discriminate G1. }
  destruct (0 <? signals e 1)%nat eqn:G2; [cbn; split; [split; [discriminate|intros (_ & _ & X & _); lia]|split; [auto|split; [intros _; left; exists 1%nat; lia|discriminate]]]|].
  destruct (o_from o && negb (open_from e)) eqn:G3; [cbn; split; [split; [discriminate|intros ((_ & _ & _ & X & _) & _)]|split; [auto|split; discriminate]]|].
  { destruct (o_from o); [destruct (X eq_refl) as (Y & _); rewrite Y in G3|]; discriminate G3. }
  destruct (o_from o && negb (request_from e)) eqn:G4; [cbn; split; [split; [discriminate|intros ((_ & _ & _ & X & _) & _)]|split; [auto|split; discriminate]]|].
  { destruct (o_from o); [destruct (X eq_refl) as (_ & Y); rewrite Y in G4|]; discriminate G4. }
  destruct (starts e); cbn [negb]; [|cbn; split; [split; [discriminate|intros ((_ & _ & _ & _ & X & _) & _); discriminate]|split; [auto|split; discriminate]]].
  destruct (0 <? signals e 2)%nat eqn:G5; [cbn; split; [split; [discriminate|intros (_ & _ & _ & X & _); lia]|split; [auto|split; [intros _; left; exists 2%nat; lia|discriminate]]]|].
  destruct ((wait e <? 0) || negb (accept e =? 0)) eqn:G6; [cbn; split; [split; [discriminate|intros ((_ & _ & _ & _ & _ & X & Y & _) & _); lia]|split; [auto|split; discriminate]]|].
  destruct ((wait e =? 2) && negb (stop e =? 0)) eqn:G7; [cbn; split; [split; [discriminate|intros ((_ & _ & _ & _ & _ & _ & _ & X) & _); lia]|split; [auto|split; [intros _; right; lia|discriminate]]]|].
  destruct (1 <? signals e 3)%nat eqn:G8; [cbn; split; [split; [discriminate|intros (_ & _ & _ & _ & X & _); lia]|split; [auto|split; [intros _; left; exists 3%nat; lia|discriminate]]]|].
  match goal with |- context [let '(f0, r0) := ?x in _] => destruct x as (f1, r1) eqn:G9 end.
  destruct (1 <? signals e 4)%nat eqn:G10; [cbn [status]; split; [split; [discriminate|intros (_ & _ & _ & _ & _ & X); lia]|split; [auto|split; [intros _; left; exists 4%nat; lia|discriminate]]]|].
  cbn [status reports]. split; [|split; [auto|split; [discriminate|]]].
  - split; [intros _|reflexivity]. split; [|lia]. split; [reflexivity|]. split; [reflexivity|].
    split; [intros X; rewrite X in G1; cbn [andb] in G1; destruct (request_to e); [reflexivity|discriminate G1]|].
    split; [intros X; rewrite X in G3, G4; cbn [andb] in G3, G4; destruct (open_from e), (request_from e); try discriminate; auto|]. split; [reflexivity|]. lia.
  - intros _ P. assert (SH : negb (o_quiet o) || o_raw o = true) by (destruct P as [-> | ->]; [reflexivity|now rewrite orb_true_r]). rewrite SH in G9 |- *.
    rewrite orb_true_r, andb_true_r in G9. rewrite andb_true_r. rewrite !in_app_iff.
    assert (R1 : (In ReportTo r1 <-> o_to o = true /\ open_to e = true /\ fetch e <> None /\ stats_to e = true) /\ ~ In ReportFrom r1).
    { destruct (o_to o); [|injection G9 as _ <-; split; [split; [intros []|intros (X & _); discriminate]|intros []]].
      destruct (open_to e); cbn [negb] in G9; [|injection G9 as _ <-; split; [split; [intros []|intros (_ & X & _); discriminate]|intros []]].
      destruct (fetch e) as [d|]; [|injection G9 as _ <-; split; [split; [intros []|intros (_ & _ & X & _); congruence]|intros []]].
      destruct (stats_to e); cbn [andb] in G9; injection G9 as _ <-; cbn [In].
      - split; [split; [intros _; repeat split; congruence|auto]|intros [X|[]]; discriminate X].
      - split; [split; [intros []|intros (_ & _ & _ & X); discriminate]|intros []]. }
    destruct R1 as (R1 & R2). split.
    + rewrite <- R1. split; [intros [X|X]; [exact X|]|auto]. destruct (o_from o && stats_from e); cbn in X; intuition discriminate.
    + split; [intros [X|X]; [tauto|]|intros (X & Y); right; rewrite X, Y; cbn; auto]. destruct (o_from o), (stats_from e); cbn in X; intuition.
Qed.
(** When the data of the session cannot be fetched, or not summarized, nothing is printed and the status is 0 *)
Theorem C124_nothing_refuted : forall o e f, completed o e -> undisturbed e -> o_from o = false -> fetch e = None \/ stats_to e = false ->
  status (owping o e f) = 0 /\ reports (owping o e f) = [].
Proof.
  intros o e f C U F X. destruct (C124_status_partial o e f) as ((_ & A) & _). split; [now apply A|]. cbv zeta in A. specialize (A (conj C U)). revert A. unfold owping. cbv zeta.
  repeat match goal with |- context [if ?b then Outcome _ _ _ else _] => destruct b; [reflexivity || (intros A; discriminate A)|] end.
  match goal with |- context [let '(f0, r0) := ?x in _] => destruct x as (f1, r1) eqn:G end.
  assert (R : r1 = []).
  { match type of G with (if ?b then _ else _) = _ => destruct b end; [|now injection G]. destruct (open_to e); cbn [negb] in G; [|now injection G].
    destruct X as [X|X]; rewrite X in G; [now injection G|]. rewrite andb_false_r in G. destruct (fetch e); now injection G. }
  subst r1. rewrite F. cbn [andb app]. destruct (1 <? signals e 4)%nat; reflexivity.
Qed.

Definition all_well : environment := Environment true true (fun _ => O) true true true true (fun k => [Z.of_nat k]) 0 0 0 true (Some [7]) true true.
Definition both : ping_options := Options true true (Some (chars "to")) (Some (chars "from")) false false.
Example C124_case : completed both all_well /\ undisturbed all_well /\ status (owping both all_well no_files) = 0 /\ reports (owping both all_well no_files) = [ReportTo; ReportFrom].
Proof. repeat split; try reflexivity; cbn; try lia. Qed.

(** ** C125: files given to owping hold the results *)

(** Only the files of -T and -F are touched *)
Theorem C125_other_files : forall o e f n, o_save_to o <> Some n -> o_save_from o <> Some n -> files (owping o e f) n = f n.
Proof.
  intros o e f n T F. unfold owping. cbv zeta.
  assert (P : forall g m c, m = o_save_from o \/ m = o_save_to o -> match m with Some x => put g x c | None => g end n = g n).
  { intros g [x|] c M; [|reflexivity]. apply put_other. intros ->. destruct M as [M|M]; congruence. }
  assert (W : forall k, (match o_save_from o with Some x => if o_from o then put f x (Some (file_at e k)) else f | None => f end) n = f n).
  { intros k. destruct (o_from o); [apply (P f _ (Some (file_at e k))); auto|now destruct (o_save_from o)]. }
  repeat match goal with |- context [if ?b then Outcome ?s ?g ?r else _] =>
    destruct b; [cbn [files]; first [reflexivity|apply W|apply (P f _ None); auto]|] end.
  match goal with |- context [let '(f0, r0) := ?x in _] => destruct x as (f1, r1) eqn:G end.
  assert (X : f1 n = f n).
  { match type of G with (if ?b then _ else _) = _ => destruct b end; [|injection G as <- _; apply W].
    destruct (negb (open_to e)); [injection G as <- _; apply W|]. destruct (fetch e) as [d|]; injection G as <- _; rewrite P by auto; apply W. }
  match goal with |- context [if ?b then Outcome ?s ?g ?r else _] => destruct b end; exact X.
Qed.
(** With status 0 the file of -F holds what the session from the remote host has recorded, that of -T what was fetched; when a session fails the file of -F is removed.
    Missing: what happens to them if the session is refused or the fetch fails, refuted below *)
Theorem C125_saved_partial : forall o e f, o_save_from o <> o_save_to o ->
  (status (owping o e f) = 0 ->
    (forall n, o_from o = true -> o_save_from o = Some n -> files (owping o e f) n = Some (file_at e 3)) /\
    (forall n d, o_to o = true -> o_save_to o = Some n -> open_to e = true -> fetch e = Some d -> files (owping o e f) n = Some d)) /\
  (starts e = true -> accept e <> 0 -> status (owping o e f) = 1 -> (o_from o = true -> open_from e = true /\ request_from e = true) -> (o_to o = true -> request_to e = true) -> connects e = true -> has_time e = true ->
    forall n, o_save_from o = Some n -> files (owping o e f) n = None).
Proof.
  intros o e f D. split.
  - unfold owping. cbv zeta.
    repeat match goal with |- context [if ?b then Outcome ?s ?g ?r else _] =>
      lazymatch s with 0 => fail | _ => destruct b; [cbn [status]; discriminate|] end end.
    match goal with |- context [let '(f0, r0) := ?x in _] => destruct x as (f1, r1) eqn:G end.
    match goal with |- context [if ?b then Outcome ?s ?g ?r else _] => destruct b; [cbn [status]; discriminate|] end.
    intros _. cbn [files]. split.
    + intros n F S. rewrite F, S in G. assert (X : forall m c, o_save_to o = Some m -> put (put f n (Some (file_at e 3))) m c n = Some (file_at e 3)).
      { intros m c M. rewrite put_other by congruence. apply put_same. }
      match type of G with (if ?b then _ else _) = _ => destruct b end; [|injection G as <- _; apply put_same].
      destruct (negb (open_to e)); [injection G as <- _; apply put_same|]. destruct (o_save_to o) as [m|]; destruct (fetch e); injection G as <- _; try apply put_same; now apply X.
    + intros n d T S OT FE. rewrite T, S, OT, FE in G. cbn [andb orb negb] in G. injection G as <- _. apply put_same.
  - intros S A R F T C H n N. revert R. unfold owping. rewrite C, H, S, N. cbv zeta. cbn [negb].
    destruct (0 <? signals e 0)%nat; [cbn; discriminate|].
    replace (o_to o && negb (request_to e)) with false by (destruct (o_to o); [rewrite T by reflexivity|]; reflexivity).
    destruct (0 <? signals e 1)%nat; [cbn; discriminate|].
    replace (o_from o && negb (open_from e)) with false by (destruct (o_from o); [destruct (F eq_refl) as (X & _); rewrite X|]; reflexivity).
    replace (o_from o && negb (request_from e)) with false by (destruct (o_from o); [destruct (F eq_refl) as (_ & X); rewrite X|]; reflexivity).
    destruct (0 <? signals e 2)%nat; [cbn; discriminate|].
    unfold CNTRL_ACCEPT. replace ((wait e <? 0) || negb (accept e =? 0)) with true by lia. intros _. cbn [files]. apply put_same.
Qed.
(** A session that the server refuses replaces the file of -F by what there is of the new one *)
Theorem C125_refused_refuted : forall o e f n, connects e = true -> has_time e = true -> signals e 0 = O -> signals e 1 = O -> (o_to o = true -> request_to e = true) ->
  o_from o = true -> o_save_from o = Some n -> open_from e = true -> request_from e = false ->
  status (owping o e f) = 1 /\ files (owping o e f) n = Some (file_at e 0).
Proof.
  intros o e f n C H S0 S1 T F N OF RF. unfold owping. rewrite C, H, S0, S1, F, N, OF, RF. cbn [negb andb Nat.ltb Nat.leb]. cbv zeta.
  replace (o_to o && negb (request_to e)) with false by (destruct (o_to o); [rewrite T by reflexivity|]; reflexivity). cbn [status files]. split; [reflexivity|apply put_same].
Qed.
(** A fetch that fails removes the file of -T, and owping ends with status 0 *)
Theorem C125_removed_refuted : forall o e f n, completed o e -> undisturbed e -> o_to o = true -> o_save_to o = Some n -> open_to e = true -> fetch e = None ->
  status (owping o e f) = 0 /\ files (owping o e f) n = None.
Proof.
  intros o e f n C U T N OT FE. destruct (C124_status_partial o e f) as ((_ & A) & _). cbv zeta in A. specialize (A (conj C U)). split; [exact A|]. revert A. unfold owping. cbv zeta.
  repeat match goal with |- context [if ?b then Outcome ?s ?g ?r else _] => lazymatch s with 0 => fail | _ => destruct b; [cbn [status]; discriminate|] end end.
  rewrite T, N, OT, FE. cbn [andb orb negb]. destruct (1 <? signals e 4)%nat; [cbn [status]; discriminate|]. intros _. cbn [files]. apply put_same.
Qed.

Example C125_case : files (owping both all_well no_files) (chars "from") = Some [3] /\ files (owping both all_well no_files) (chars "to") = Some [7] /\
  exists f, files (owping both (Environment true true (fun _ => O) true true false true (fun _ => []) 0 0 0 true None true true) f) (chars "from") = Some [] /\ f (chars "from") = Some [1; 2; 3].
Proof. split; [reflexivity|]. split; [reflexivity|]. exists (fun _ => Some [1; 2; 3]). split; reflexivity. Qed.

(** ** C126: the start of a test leaves time for its set-up *)

(** The start is at least one second plus a round trip for each request and for the start message from now, at least the time given with -z, and not later than the larger of them *)
Theorem C126_start : forall (to from : bool) rtt delay now, 0 <= rtt < 2 ^ 62 -> (0 <= delay)%Q -> Qfloor (delay * inject_Z (2 ^ 32)) < 2 ^ 64 -> 0 <= now < 2 ^ 64 ->
  let needed := (1 + (if to then 1 else 0) + (if from then 1 else 0)) * rtt + 2 ^ 32 in
  (start_time to from rtt delay now - now) mod 2 ^ 64 = Z.max needed (Qfloor (delay * inject_Z (2 ^ 32))).
Proof.
  intros to from rtt delay now R D B N. cbv zeta. unfold start_time. cbv zeta. set (k := 1 + (if to then 1 else 0) + (if from then 1 else 0)).
  assert (K : 1 <= k <= 3) by (unfold k; destruct to, from; lia).
  assert (UL : forall a, 0 <= a < 2 ^ 32 -> OWPULongToNum64 a = a * 2 ^ 32).
  { intros a A. unfold OWPULongToNum64, u64, u32. rewrite (Z.mod_small a) by exact A. apply Z.mod_small. lia. }
  rewrite (UL k), (UL 1), (UL 0) by lia. rewrite Num64Mult_exact by (unfold is_u64; lia).
  replace (rtt * (k * 2 ^ 32) / M32) with (rtt * k) by (rewrite Z.mul_assoc; change 4294967296 with (2 ^ 32); now rewrite Z.div_mul).
  assert (P : 0 <= rtt * k < 3 * 2 ^ 62) by nia. rewrite (Z.mod_small (rtt * k) M64) by lia.
  assert (QD : (if Qle_bool delay 0 then 0 * 2 ^ 32 else of_double delay) = Qfloor (delay * inject_Z (2 ^ 32))).
  { destruct (Qle_bool delay 0) eqn:E.
    - apply Qle_bool_iff in E. assert (Z0 : (delay == 0)%Q) by (apply Qle_antisym; assumption).
      assert (Z1 : (delay * inject_Z (2 ^ 32) == 0)%Q) by (rewrite Z0; apply Qmult_0_l). rewrite (Qfloor_comp _ _ Z1). reflexivity.
    - unfold of_double. apply Qle_bool_iff in D. rewrite D. reflexivity. }
  rewrite QD. set (q := Qfloor (delay * inject_Z (2 ^ 32))) in *.
  unfold OWPNum64Add, u64. rewrite (Z.mod_small (rtt * k + 1 * 2 ^ 32)) by lia.
  change M64 with (2 ^ 64). rewrite Zminus_mod_idemp_l. match goal with |- (?x + now - now) mod _ = _ => replace (x + now - now) with x by lia end.
  destruct (Z.ltb_spec (rtt * k + 1 * 2 ^ 32) q); rewrite Z.mod_small; lia.
Qed.
(** The loss timeout is that of -L, or two seconds more than the bound of the round trip time (below 2^20 s) *)
Theorem C126_loss_timeout : forall rtt loss, 0 <= rtt <= 2 ^ 52 -> (0 <= loss)%Q ->
  ((loss == 0)%Q -> loss_timeout loss rtt = rtt + 2 * 2 ^ 32) /\ ((0 < loss)%Q -> loss_timeout loss rtt = Qfloor (loss * inject_Z (2 ^ 32))).
Proof.
  intros rtt loss R L. unfold loss_timeout. split.
  - intros Z0. replace (Qle_bool loss 0) with true by (symmetry; apply Qle_bool_iff; rewrite Z0; apply Qle_refl).
    rewrite (dbl_exact rtt) by lia. rewrite dbl_exact by lia. reflexivity.
  - intros P. destruct (Qle_bool loss 0) eqn:E; [apply Qle_bool_iff in E; exfalso; apply (Qlt_not_le _ _ P E)|].
    unfold of_double. apply Qle_bool_iff in L. now rewrite L.
Qed.
Example C126_case : start_time true true (2 ^ 31) (1 # 2) 100 = 100 + 3 * 2 ^ 31 + 2 ^ 32 /\ start_time true false 0 (5 # 2) (2 ^ 64 - 1) = 5 * 2 ^ 31 - 1 /\ loss_timeout 0 1 = 1 + 2 ^ 33.
Proof. split; [vm_compute; reflexivity|]. split; vm_compute; reflexivity. Qed.

(** ** C127: with -p there is a file for every sample *)

(** If the samples have different times and there are no files of these names, each of them is written to its file, whose name is printed; nothing else is left or changed.
    Missing: equal times and names that exist, refuted below *)
Theorem C127_files_partial : forall dir ext start l f, Forall in_range (map fst l) -> NoDup (map fst l) ->
  (forall s, In s l -> f (result_name dir ext (fst s)) = None) ->
  exists f', write_samples dir ext start l f = (f', map (fun s => result_name dir ext (fst s)) l, true) /\
    (forall s, In s l -> f' (result_name dir ext (fst s)) = Some (snd s)) /\ (l <> [] -> f' (temp_name dir start) = None) /\
    (forall n, n <> temp_name dir start -> ~ In n (map (fun s => result_name dir ext (fst s)) l) -> f' n = f n).
Proof.
  intros dir ext start l f R N F. destruct (write_fresh dir ext start l f R N) as (f' & A & B & C & D).
  { intros s I. apply in_map_iff in I. destruct I as (x & <- & I). now apply F. }
  exists f'. rewrite map_map in A, D. auto.
Qed.
(** The times are different if there is some time between any two packets and the schedule does not run over the end of time; different times have different names *)
Theorem C127_times_differ : forall n npackets ranges start delta, 0 < n -> pieces n 0 npackets ranges -> (forall k, 0 < delta k) -> 0 <= start ->
  start + total delta (Z.to_nat npackets) < 2 ^ 64 -> NoDup (map (sample_times start delta) ranges) /\ Forall in_range (map (sample_times start delta) ranges).
Proof.
  intros n np ranges start delta N P D S0 W. split.
  - assert (NF : NoDup (map (fun t : Z * Z => fst t) (map (sample_times start delta) ranges))).
    { rewrite map_map. unfold sample_times. cbn [fst]. pose proof (pieces_NoDup _ _ _ _ N P) as ND.
      assert (B : forall r, In r ranges -> 0 <= fst r < np) by (intros r I; apply (pieces_bounds _ _ _ _ r N P I)).
      clear P. induction ranges as [|r l IH]; cbn [map] in *; [constructor|]. inversion ND as [|? ? N1 N2]; subst. constructor; [|apply IH; [exact N2|intros x I; apply B; now right]].
      intros I. apply in_map_iff in I. destruct I as (x & E & I). apply N1. apply in_map_iff. exists x. split; [|exact I].
      pose proof (B x (or_intror I)) as Bx. pose proof (B r (or_introl eq_refl)) as Br.
      assert (M : forall q, 0 <= q < np -> sched_stamp start delta q = start + total delta (Z.to_nat q)).
      { intros q Q. unfold sched_stamp. apply Z.mod_small. pose proof (total_mono_le delta (Z.to_nat q) (Z.to_nat np) D ltac:(lia)).
        pose proof (total_mono_le delta 0 (Z.to_nat q) D ltac:(lia)) as T0. cbn [total] in T0. pose proof (D 0%nat). lia. }
      rewrite (M (fst x) Bx), (M (fst r) Br) in E. destruct (Z.lt_trichotomy (fst x) (fst r)) as [L|[L|L]]; [|exact L|].
      - pose proof (total_mono delta (Z.to_nat (fst x)) (Z.to_nat (fst r)) D ltac:(lia)). lia.
      - pose proof (total_mono delta (Z.to_nat (fst r)) (Z.to_nat (fst x)) D ltac:(lia)). lia. }
    exact (NoDup_map_inv _ _ NF).
  - apply Forall_forall. intros t I. apply in_map_iff in I. destruct I as (r & <- & _). unfold in_range, sample_times, sched_stamp. cbn [fst snd]. split; apply Z.mod_pos_bound; lia.
Qed.
(** Nothing is printed if the file of the first sample exists, for instance when the same data are summarized again *)
Theorem C127_exists_refuted : forall dir ext start t text l f old, f (result_name dir ext t) = Some old ->
  exists f', write_samples dir ext start ((t, text) :: l) f = (f', [], false) /\ forall n, n <> temp_name dir start -> f' n = f n.
Proof.
  intros dir ext start t text l f old F. cbn [write_samples]. rewrite put_other by (apply not_eq_sym, temp_not_result). rewrite F.
  eexists. split; [reflexivity|]. intros n N. now rewrite !put_other by exact N.
Qed.
(** For a schedule of fixed delays the files of the two directions of a test have the same names: only those of the direction that is reported first are written *)
Theorem C127_both_directions_refuted : forall E sid1 sid2 offsets npackets c1 c2 n ds1 ds2 x1 x2,
  (forall k b, List.length (E k b) = 16%nat) -> (forall k b, octets (E k b)) ->
  let spec := mkSpec (Some (map SlotLit offsets)) npackets in
  Forall (fun d => 0 <= d < 2 ^ 64) offsets -> 0 <= npackets < 2 ^ 32 -> Z.of_nat n <= npackets ->
  sched_create sid1 spec = Some c1 -> sched_create sid2 spec = Some c2 -> next_deltas E n c1 = (map Delta ds1, x1) -> next_deltas E n c2 = (map Delta ds2, x2) ->
  ds1 = ds2 /\
  forall dir ext start r ranges text1 text2 texts1 texts2 f f1 names1,
    let samples ds texts := combine (map (sample_times start (fun k => nth k ds 0)) (r :: ranges)) texts in
    write_samples dir ext start (samples ds1 (text1 :: texts1)) f = (f1, names1, true) -> Forall in_range (map fst (samples ds1 (text1 :: texts1))) ->
    exists f2, write_samples dir ext start (samples ds2 (text2 :: texts2)) f1 = (f2, [], false) /\ forall n, n <> temp_name dir start -> f2 n = f1 n.
Proof.
  intros E sid1 sid2 offsets np c1 c2 n ds1 ds2 x1 x2 EL EO spec OF NP NN C1 C2 D1 D2.
  assert (SO : Forall slot_ok (map SlotLit offsets)).
  { clear - OF. induction OF as [|d l B F IH]; cbn [map]; constructor; [exact B|exact IH]. }
  destruct (C07_slots_in_rotation E sid1 spec c1 (map SlotLit offsets) n EL EO C1 eq_refl SO NP NN) as (e1 & y1 & p1 & X1 & S1).
  destruct (C07_slots_in_rotation E sid2 spec c2 (map SlotLit offsets) n EL EO C2 eq_refl SO NP NN) as (e2 & y2 & p2 & X2 & S2).
  assert (INJ : forall a b, map Delta a = map Delta b -> a = b).
  { induction a as [|u a IH]; intros [|v b] H; cbn [map] in H; try discriminate H; [reflexivity|]. injection H as -> H. f_equal. now apply IH. }
  assert (LEN : forall m c l x, next_deltas E m c = (l, x) -> List.length l = m).
  { induction m as [|m IH]; intros c l x H; cbn [next_deltas] in H; [injection H as <- _; reflexivity|].
    destruct (next_delta E c) as (d, c'). destruct (next_deltas E m c') as (l', x') eqn:G. injection H as <- _. cbn. f_equal. eapply IH, G. }
  assert (A1 : ds1 = e1) by (apply INJ; congruence). assert (A2 : ds2 = e2) by (apply INJ; congruence). subst e1 e2.
  assert (LL : List.length ds1 = List.length ds2). { apply LEN in D1. apply LEN in D2. rewrite map_length in D1, D2. congruence. }
  assert (LIT : forall i b off, nth_error (map slot_view (map SlotLit offsets)) i = Some (b, off) -> b = false).
  { intros i b off H. apply nth_error_In in H. rewrite map_map in H. apply in_map_iff in H. destruct H as (d & H & _). cbn in H. now injection H. }
  assert (DET : forall w1 w2 i p1 p2 q1 q2 l1 l2, is_schedule w1 (map slot_view (map SlotLit offsets)) i p1 l1 q1 -> is_schedule w2 (map slot_view (map SlotLit offsets)) i p2 l2 q2 ->
    List.length l1 = List.length l2 -> l1 = l2).
  { clear - LIT. intros w1 w2 i p1 p2 q1 q2 l1 l2 H1. revert p2 q2 l2. induction H1 as [i p|i p off ds p' K H IH|i p mean X m ds p' K DV H IH]; intros p2 q2 l2 H2 L.
    - destruct l2; [reflexivity|discriminate L].
    - inversion H2 as [j q EQ1|j q off2 ds2 q' K2 H2' EQ1|j q mean2 X2 m2 ds2 q' K2 DV2 H2' EQ1]; subst; [discriminate L| |].
      + rewrite K in K2. injection K2 as <-. f_equal. cbn in L. injection L as L. eapply IH; eauto.
      + apply LIT in K2. discriminate K2.
    - apply LIT in K. discriminate K. }
  assert (DE : ds1 = ds2) by (eapply DET; eauto). split; [exact DE|]. subst ds2. clear - C1.
  intros dir ext start r ranges text1 text2 texts1 texts2 f f1 names1 samples W R. unfold samples in *. cbn [map combine] in *. set (t := sample_times start (fun k => nth k ds1 0) r) in *.
  inversion R as [|? ? R1 R2]; subst. cbn [fst] in R1. cbn [write_samples] in W. rewrite put_other in W by (apply not_eq_sym, temp_not_result).
  destruct (f (result_name dir ext t)) as [o|] eqn:F; [discriminate W|].
  match type of W with context [write_samples dir ext start ?l ?g] => remember g as g1 eqn:G1; destruct (write_samples dir ext start l g1) as ((f2, nm), ok) eqn:W2 end.
  injection W as <- _ ->.
  assert (KEEP : forall l g g' ns b, write_samples dir ext start l g = (g', ns, b) -> forall m x, m <> temp_name dir start -> g m = Some x -> exists y, g' m = Some y).
  { clear. induction l as [|(t, tx) l IH]; intros g g' ns b W m x M G; cbn [write_samples] in W; [injection W as <- _ _; eauto|].
    destruct (put g (temp_name dir start) (Some tx) (result_name dir ext t)) eqn:K.
    - injection W as <- _ _. rewrite !put_other by exact M. eauto.
    - destruct (write_samples dir ext start l _) as ((g2, ns2), b2) eqn:W2. injection W as <- _ _. eapply IH; [exact W2|exact M|].
      rewrite put_other by exact M. rewrite put_other; [rewrite put_other by exact M; exact G|]. intros ->. rewrite put_other in K by exact M. congruence. }
  destruct (KEEP _ _ _ _ _ W2 (result_name dir ext t) text1) as (y & Y).
  { apply not_eq_sym, temp_not_result. }
  { rewrite G1. rewrite put_other by (apply not_eq_sym, temp_not_result). apply put_same. }
  apply (C127_exists_refuted dir ext start t text2 _ f2 y Y).
Qed.

Example C127_case :
  let r := write_samples [] (chars ".txt") 5 [((5, 9), [1]); ((10, 14), [2])] no_files in
  snd r = true /\ snd (fst r) = [chars "00000000000000000005_00000000000000000009.txt"; chars "00000000000000000010_00000000000000000014.txt"] /\
  fst (fst r) (chars "00000000000000000010_00000000000000000014.txt") = Some [2] /\ snd (write_samples [] (chars ".txt") 5 [((5, 9), [1])] (fst (fst r))) = false.
Proof. vm_compute. auto. Qed.

Example C127_case_directions :
  exists c1, sched_create toysid (mkSpec (Some [SlotLit 10; SlotLit 20]) 5) = Some c1 /\ fst (next_deltas toyE 5 c1) = map Delta [10; 20; 10; 20; 10] /\
  exists c2, sched_create (rev toysid) (mkSpec (Some [SlotLit 10; SlotLit 20]) 5) = Some c2 /\ fst (next_deltas toyE 5 c2) = map Delta [10; 20; 10; 20; 10].
Proof. eexists. split; [reflexivity|]. split; [reflexivity|]. eexists. split; reflexivity. Qed.

(** ** C128: owfetch fetches the sessions that are named *)

(** If all names are those of sessions (32 hex digits) and the files are different, the sessions are asked for in their order, and what the server sends is in their files;
    other files are not touched.  Missing: names that are no SID and requests that are refused, refuted below *)
Theorem C128_fetch_partial : forall l f asked f', owfetch l f = (asked, f') -> Forall (fun j => decoded j <> None /\ opened j = true) l -> NoDup (map j_file l) ->
  map Some asked = map decoded l /\
  (forall j sid, In j l -> decoded j = Some sid -> f' (j_file j) = answer j sid) /\
  (forall n, ~ In n (map j_file l) -> f' n = f n).
Proof.
  induction l as [|j l IH]; intros f asked f' H G N; cbn [owfetch map] in *; [injection H as <- <-; repeat split; intros; try contradiction; reflexivity|].
  inversion G as [|? ? (G1 & G2) G3]; subst. inversion N as [|? ? N1 N2]; subst.
  destruct (decoded j) as [sid|] eqn:DJ; [|congruence]. unfold fetch_sid in H. rewrite G2 in H. cbn [negb] in H.
  assert (X : exists f1, (match answer j sid with Some d => (put f (j_file j) (Some d), true) | None => (put f (j_file j) None, false) end) = (f1, (match answer j sid with Some _ => true | None => false end)) /\
    f1 (j_file j) = answer j sid /\ forall n, n <> j_file j -> f1 n = f n).
  { destruct (answer j sid) as [d|]; eexists; (split; [reflexivity|split; [apply put_same|intros n M; now apply put_other]]). }
  destruct X as (f1 & E & A & B). rewrite E in H. destruct (owfetch l f1) as (as1, f2) eqn:W. injection H as <- <-.
  destruct (IH _ _ _ W G3 N2) as (P & Q & R). split; [cbn [app map]; now rewrite P|]. split.
  - intros k s [<-|I] DK; [rewrite R by exact N1; congruence|now apply Q].
  - intros n M. cbn [In] in M. rewrite R by tauto. apply B. intros ->. tauto.
Qed.
(** A name that is no SID is not refused: the session that happens to be in a variable is asked for *)
Theorem C128_no_sid_refuted : forall j f, decoded j = None -> opened j = true -> fst (owfetch [j] f) = [junk j].
Proof. intros j f D O. cbn [owfetch]. rewrite D. destruct (fetch_sid j (junk j) f). rewrite O. reflexivity. Qed.
(** A request that is refused removes the file, whatever it held *)
Theorem C128_removed_refuted : forall j sid f, decoded j = Some sid -> opened j = true -> answer j sid = None -> snd (owfetch [j] f) (j_file j) = None.
Proof. intros j sid f D O A. cbn [owfetch]. rewrite D. unfold fetch_sid. rewrite O, A. cbn [negb snd]. apply put_same. Qed.
Example C128_case :
  owfetch [] no_files = ([], no_files) /\
  let server (sid : list Z) := if eqb_octets sid [1] then Some [9; 9] else None in
  let r := owfetch [Job (chars "a") (Some [1]) [] true server true; Job (chars "b") (Some [2]) [] true server true] (fun _ => Some [5]) in
  fst r = [[1]; [2]] /\ snd r (chars "a") = Some [9; 9] /\ snd r (chars "b") = None /\ snd r (chars "c") = Some [5].
Proof. split; [reflexivity|]. vm_compute. auto. Qed.

(** ** C129: numbers given to owping mean what they say *)

(** A number below 2^32, with blanks before it, is the number of packets (-c, -N); something that is not all digits is refused *)
Theorem C129_number_partial : forall pre s rest, Forall (fun c => 9 <= c <= 13 \/ c = 32) pre -> numeral s ->
  (value s < 2 ^ 32 -> option_number (pre ++ s) = Some (value s)) /\ (match rest with c :: _ => 10 <= digit c | [] => False end -> option_number (pre ++ s ++ rest) = None).
Proof.
  intros pre s rest P N. pose proof (value_nonneg s (proj2 N)) as V0. unfold option_number. split.
  - intros V. pose proof (strtoul10_numeral pre [] s [] P (or_introl eq_refl) N I) as E. cbn [app] in E. rewrite app_nil_r in E. rewrite E.
    destruct (Z.ltb_spec 18446744073709551615 (value s)); [lia|]. f_equal. unfold u32. apply Z.mod_small. lia.
  - intros R. pose proof (strtoul10_numeral pre [] s rest P (or_introl eq_refl) N) as E. cbn [app] in E. rewrite E by (destruct rest; [destruct R|exact R]).
    destruct (18446744073709551615 <? value s); destruct rest; [destruct R|reflexivity|destruct R|reflexivity].
Qed.
(** The padding (-s) is the number given, up to 65000 octets *)
Theorem C129_padding_partial : forall s unset, numeral s -> value s <= 65000 -> padding (Some s) unset = Some (value s).
Proof.
  intros s unset N V. unfold padding. destruct (C129_number_partial [] s [] (Forall_nil _) N) as (A & _). cbn [app] in A. rewrite A by lia.
  pose proof (value_nonneg s (proj2 N)). replace (value s =? 4294967295) with false by lia. replace (65000 <? value s) with false by lia. reflexivity.
Qed.
(** Larger numbers are taken modulo 2^32, those from 2^64 on as 2^32 - 1, ... *)
Theorem C129_cut_refuted : forall s, numeral s -> 2 ^ 32 <= value s -> option_number s = Some (if 2 ^ 64 <=? value s then 2 ^ 32 - 1 else value s mod 2 ^ 32).
Proof.
  intros s N V. pose proof (strtoul10_numeral [] [] s [] (Forall_nil _) (or_introl eq_refl) N I) as E. cbn [app] in E. rewrite app_nil_r in E. unfold option_number. rewrite E.
  destruct (Z.ltb_spec 18446744073709551615 (value s)).
  - replace (2 ^ 64 <=? value s) with true by lia. reflexivity.
  - replace (2 ^ 64 <=? value s) with false by lia. reflexivity.
Qed.
(** ... negative numbers modulo 2^32, nothing at all is 0, ... *)
Theorem C129_negative_refuted : (forall s, numeral s -> value s < 2 ^ 64 -> option_number (45 :: s) = Some ((- value s) mod 2 ^ 32)) /\ option_number [] = Some 0.
Proof.
  split; [|reflexivity]. intros s N V. pose proof (strtoul10_numeral [] [45] s [] (Forall_nil _) (or_intror (or_intror (or_introl eq_refl))) N I) as E. cbn [app] in E.
  rewrite app_nil_r in E. unfold option_number. rewrite E. destruct (Z.ltb_spec 18446744073709551615 (value s)); [lia|]. f_equal. unfold u32.
  change 18446744073709551616 with (4294967296 * 4294967296). change (2 ^ 32) with 4294967296. change M32 with 4294967296.
  symmetry. rewrite Z.rem_mul_r by lia. rewrite Z.mul_comm, Z_mod_plus_full, Z.mod_mod by lia. reflexivity.
Qed.
(** ... and more padding than 65000 octets is reduced without a word *)
Theorem C129_padding_refuted : forall s unset, numeral s -> 65000 < value s < 2 ^ 32 - 1 -> padding (Some s) unset = Some 65000.
Proof.
  intros s unset N V. unfold padding. destruct (C129_number_partial [] s [] (Forall_nil _) N) as (A & _). cbn [app] in A. rewrite A by lia.
  replace (value s =? 4294967295) with false by lia. replace (65000 <? value s) with true by lia. reflexivity.
Qed.
Example C129_case : option_number (chars "100") = Some 100 /\ option_number (chars "4294967297") = Some 1 /\ option_number (chars "-1") = Some 4294967295 /\
  option_number (chars "10k") = None /\ option_number (chars "abc") = None /\ padding (Some (chars "65507")) 0 = Some 65000.
Proof. vm_compute. auto 10. Qed.

Print Assumptions C123_letters.
Print Assumptions C123_not_open_partial.
Print Assumptions C123_fallback_refuted.
Print Assumptions C123_downgrade_refuted.
Print Assumptions C123_undefined_refuted.
Print Assumptions C124_status_partial.
Print Assumptions C124_nothing_refuted.
Print Assumptions C125_other_files.
Print Assumptions C125_saved_partial.
Print Assumptions C125_refused_refuted.
Print Assumptions C125_removed_refuted.
Print Assumptions C126_start.
Print Assumptions C126_loss_timeout.
Print Assumptions C127_files_partial.
Print Assumptions C127_times_differ.
Print Assumptions C127_exists_refuted.
Print Assumptions C127_both_directions_refuted.
Print Assumptions C128_fetch_partial.
Print Assumptions C128_no_sid_refuted.
Print Assumptions C128_removed_refuted.
Print Assumptions C129_number_partial.
Print Assumptions C129_padding_partial.
Print Assumptions C129_cut_refuted.
Print Assumptions C129_negative_refuted.
Print Assumptions C129_padding_refuted.
