(** Proofs about powstream without -t: the names of the files, as long as no setup of a session fails *)
From Coq Require Import ZArith List Bool Lia ZifyBool ZifyNat Arith.
From Verif Require Import Base BaseLemmas Arith_Model Sender_Spec Receiver_Spec Pow_Model Pow_Spec Pow_Proofs.
Import ListNotations.
Open Scope Z_scope.

Definition is_sum (e : event) : bool := match e with ESum _ _ _ _ _ => true | _ => false end.
(** the log grew, but no summary was stored *)
Definition gr (w w' : world) : Prop := exists l, w_log w' = w_log w ++ l /\ Forall (fun e => is_sum e = false) l.
Lemma gr_refl : forall w, gr w w. Proof. intros w. exists []. now rewrite app_nil_r. Qed.
Lemma gr_log : forall w w', w_log w' = w_log w -> gr w w'. Proof. intros w w' L. exists []. now rewrite app_nil_r. Qed.
Lemma gr_like : forall w w', like w w' -> gr w w'. Proof. intros w w' (_ & _ & _ & L). now apply gr_log. Qed.
Lemma gr_trans : forall w1 w2 w3, gr w1 w2 -> gr w2 w3 -> gr w1 w3.
Proof. intros w1 w2 w3 (l1 & L1 & F1) (l2 & L2 & F2). exists (l1 ++ l2). split; [rewrite L2, L1; now rewrite app_assoc|]. apply Forall_app. auto. Qed.
Lemma gr_emit : forall e w, is_sum e = false -> gr w (wemit e w). Proof. intros. exists [e]. auto. Qed.
Lemma gr_in : forall w w' e, gr w w' -> In e (w_log w) -> In e (w_log w'). Proof. intros w w' e (l & E & _) X. rewrite E. apply in_app_iff. now left. Qed.
Lemma gr_sum : forall w w' i f l a b, gr w w' -> In (ESum i f l a b) (w_log w') -> In (ESum i f l a b) (w_log w).
Proof. intros w w' i f l a b (k & E & F) X. rewrite E in X. apply in_app_iff in X. destruct X as [X|X]; [exact X|]. rewrite Forall_forall in F. specialize (F _ X). discriminate. Qed.
Definition bad (w : world) : Prop := In EFailed (w_log w).

Section Names.
Context {N K : nat} {loss iotime retry delay_start : Z} {printfiles : bool} {delta : Z -> nat -> Z} {depth : nat}.
Hypothesis SOME : (0 < N)%nat.
Notation npackets := (npackets N K).
Notation ends := (ends_at delta npackets).
Notation stamp := (stamp delta).
Notation add_deltas := (add_deltas delta).
Notation write_session := (write_session N K false printfiles delta).
Notation reset_session := (reset_session N K false printfiles delta).
Notation close_sessions := (close_sessions N K false printfiles delta).
Notation sig_check := (sig_check N K false printfiles delta).
Notation check := (check N K false printfiles delta depth).
Notation sleep := (sleep N K false printfiles delta depth).
Notation setup_rest := (setup_rest N K delay_start false printfiles delta depth).
Notation setup_session := (setup_session N K retry delay_start false printfiles delta depth).
Notation wait_again := (wait_again N K false printfiles delta depth).
Notation wait_range := (wait_range N K false printfiles delta depth).
Notation create := (create N K false printfiles delta depth).
Notation summary := (summary N K false printfiles delta depth).
Notation summaries := (summaries N K loss iotime retry delay_start false printfiles delta depth).
Notation finish := (finish N K false printfiles delta depth).
Notation pass := (pass N K loss iotime retry delay_start false printfiles delta depth).
Notation passes := (passes N K loss iotime retry delay_start false printfiles delta depth).
Notation acc := (@acc delta).

(** ** Times *)
Lemma npos : (0 < npackets)%nat. Proof. unfold Pow_Model.npackets. destruct K; [exact SOME|lia]. Qed.
Lemma stamp_ends : forall sid t, stamp sid t npackets = ends sid t.
Proof. intros sid t. pose proof npos as P. unfold ends_at, Pow_Spec.stamp. destruct npackets as [|n]; [lia|]. f_equal. lia. Qed.
Lemma ends_range : forall sid t, 0 <= ends sid t < 2 ^ 64. Proof. intros. unfold ends_at, sched_stamp. apply Z.mod_pos_bound. reflexivity. Qed.
Lemma acc_stamp : forall sid t n, acc sid 0 n t = stamp sid t n.
Proof. intros sid t [|n]; [reflexivity|]. unfold Pow_Spec.stamp, sched_stamp. rewrite acc_part, part_total. now rewrite Nat2Z.id. Qed.
Lemma acc_app : forall n sid k m t, acc sid (k + n) m (acc sid k n t) = acc sid k (n + m) t.
Proof. induction n as [|n IH]; intros sid k m t; cbn [Nat.add Pow_Proofs.acc]; [now rewrite Nat.add_0_r|]. rewrite <- IH. f_equal. lia. Qed.
Lemma add_acc : forall sid t n, 0 <= t < 2 ^ 64 -> OWPNum64Add t (acc sid 0 n 0) = stamp sid t n.
Proof.
  intros sid t [|n] R; unfold OWPNum64Add, u64; change M64 with (2 ^ 64).
  - cbn [Pow_Proofs.acc Pow_Spec.stamp]. rewrite Z.add_0_r. now apply Z.mod_small.
  - rewrite acc_part, part_total, Zplus_mod_idemp_r. unfold Pow_Spec.stamp, sched_stamp. now rewrite Nat2Z.id.
Qed.

(** ** What is claimed of a log *)
Definition isend (log : list event) (t : Z) : Prop := exists i sid s n, In (EStart i sid s n) log /\ t = ends sid s.
Definition range_of (log : list event) (i : nat) (f l a b : Z) : Prop :=
  exists sid t n k, In (EStart i sid t n) log /\ (k < K)%nat /\ f = Z.of_nat (N * k) /\ l = Z.of_nat (N * S k) /\ a = stamp sid t (N * k) /\ b = stamp sid t (N * S k).
Definition file_of (log : list event) (i : nat) (a b : Z) : Prop :=
  exists sid t n m, In (EStart i sid t n) log /\ a = t /\ (0 < m <= npackets)%nat /\ b = stamp sid t m /\ (m = npackets \/ In (EBroken i) log).
Definition summed (log : list event) (i k : nat) : Prop := exists a b, In (ESum i (Z.of_nat (N * k)) (Z.of_nat (N * S k)) a b) log.
Record Good (log : list event) : Prop := mkGood {
  g_start : forall i sid t n, In (EStart i sid t n) log -> i <> 0%nat /\ 0 <= t < 2 ^ 64;
  g_once : forall i sid t n sid' t' n', In (EStart i sid t n) log -> In (EStart i sid' t' n') log -> sid' = sid /\ t' = t /\ n' = n;
  g_sum : forall i f l a b, In (ESum i f l a b) log -> range_of log i f l a b;
  g_order : forall i f l a b f' l' a' b' x y z, log = x ++ ESum i f l a b :: y ++ ESum i f' l' a' b' :: z -> f < f';
  g_file : forall i a b, In (ESession i a b) log \/ In (EWhole i a b) log -> file_of log i a b;
  g_all : forall i a b, In (ESession i a b) log -> ~ In (EBroken i) log -> ~ In (EMissed i) log -> forall k, (k < K)%nat -> summed log i k;
  g_next : forall i sid t n x y, log = x ++ EStart i sid t n :: y -> t = n \/ n <= t /\ isend x t }.

Definition fits (log : list event) (e : event) : Prop :=
  match e with
  | EStart i sid t n => i <> 0%nat /\ 0 <= t < 2 ^ 64 /\ (forall sid t n, ~ In (EStart i sid t n) log) /\ (t = n \/ n <= t /\ isend log t)
  | ESum i f l a b => range_of log i f l a b /\ (forall f' l' a' b', In (ESum i f' l' a' b') log -> f' < f)
  | ESession i a b => file_of log i a b /\ (In (EBroken i) log \/ In (EMissed i) log \/ forall k, (k < K)%nat -> summed log i k)
  | EWhole i a b => file_of log i a b
  | _ => True
  end.
Lemma snoc_split : forall A (l : list A) (e y : A) x z, l ++ [e] = x ++ y :: z -> (z = [] /\ x = l /\ y = e) \/ exists z', z = z' ++ [e] /\ l = x ++ y :: z'.
Proof.
  intros A l e y x z E. destruct z as [|u z _] using rev_ind.
  - left. apply app_inj_tail in E. destruct E. auto.
  - right. exists z. change (y :: z ++ [u]) with ((y :: z) ++ [u]) in E. rewrite app_assoc in E. apply app_inj_tail in E. destruct E as (E & ->). auto.
Qed.
Lemma Good_snoc : forall log e, Good log -> fits log e -> Good (log ++ [e]).
Proof.
  intros log e G F.
  assert (MI: forall x, In x log -> In x (log ++ [e])) by (intros; apply in_app_iff; now left).
  assert (RM: forall i f l a b, range_of log i f l a b -> range_of (log ++ [e]) i f l a b). { intros i f l a b (sid & t & n & k & X & Y). exists sid, t, n, k. auto. }
  assert (FM: forall i a b, file_of log i a b -> file_of (log ++ [e]) i a b). { intros i a b (sid & t & n & m & X & Y & Z0 & V & W). exists sid, t, n, m. destruct W; auto 10. }
  assert (SM: forall i k, summed log i k -> summed (log ++ [e]) i k). { intros i k (a & b & X). exists a, b. auto. }
  split.
  - intros i sid t n X. apply in_snoc in X. destruct X as [X| <-]; [eapply g_start; eauto|]. destruct F as (A & B & _). auto.
  - intros i sid t n sid' t' n' X Y. apply in_snoc in X, Y. destruct X as [X|X], Y as [Y|Y].
    + eapply g_once; eauto.
    + subst e. destruct F as (_ & _ & F & _). now destruct (F sid t n).
    + subst e. destruct F as (_ & _ & F & _). now destruct (F sid' t' n').
    + rewrite <- Y in X. injection X as E1 E2 E3. auto.
  - intros i f l a b X. apply in_snoc in X. destruct X as [X| <-]; apply RM; [now apply (g_sum _ G)|apply F].
  - intros i f l a b f' l' a' b' x y z E. change (x ++ ESum i f l a b :: y ++ ESum i f' l' a' b' :: z) with (x ++ (ESum i f l a b :: y) ++ ESum i f' l' a' b' :: z) in E.
    rewrite app_assoc in E. apply snoc_split in E. destruct E as [(_ & E & <-)|(z' & -> & E)].
    + destruct F as (_ & F). apply (F f l a b). rewrite <- E. apply in_app_iff. right. now left.
    + rewrite <- app_assoc in E. exact (g_order _ G _ _ _ _ _ _ _ _ _ _ _ _ E).
  - intros i a b X. apply FM. rewrite !in_snoc in X. destruct X as [[X| <-]|[X| <-]]; [apply (g_file _ G); auto|apply F|apply (g_file _ G); auto|exact F].
  - intros i a b X NB NM k LK. apply SM. apply in_snoc in X. destruct X as [X| <-].
    + eapply (g_all _ G); eauto.
    + destruct F as (_ & [F|[F|F]]); [now destruct NB; apply MI|now destruct NM; apply MI|auto].
  - intros i sid t n x y E. apply snoc_split in E. destruct E as [(_ & -> & <-)|(z' & -> & E)]; [apply F|]. eapply (g_next _ G); eauto.
Qed.

(** ** The base of all invariants *)
Definition U (w : world) : Prop := (0 < w_serial w)%nat /\ (forall e, In e (w_log w) -> (about e < w_serial w)%nat) /\ (forall b, (c_id (conn_of b w) < w_serial w)%nat) /\
  (forall b, c_id (conn_of b w) <> 0%nat -> c_id (conn_of b w) <> c_id (conn_of (negb b) w)).
Definition B (w : world) : Prop := Good (w_log w) /\ U w.
Definition Hh (h : halt) (w : world) : Prop := Good (w_log w).
Lemma B_like : forall w w', like w w' -> B w -> B w'.
Proof. intros w w' L (G & A1 & A2 & A3 & A4). pose proof (fun b => like_conn w w' b L) as LC. destruct L as (_ & _ & S & L). unfold B, U. rewrite L, S. split; [exact G|]. split; [exact A1|]. split; [exact A2|]. split; intros b; rewrite !LC; auto. Qed.
Lemma B_emit : forall e w, B w -> fits (w_log w) e -> (about e < w_serial w)%nat -> B (wemit e w).
Proof.
  intros e w (G & A1 & A2 & A3 & A4) F AB. unfold B, U. split; [now apply Good_snoc|]. split; [exact A1|]. split; [intros x X; apply in_snoc in X; destruct X as [X| ->]; auto|]. split; intros b; rewrite !conn_emit; auto.
Qed.
Lemma B_mod : forall b f w, B w -> (forall c, c_id (f c) = c_id c) -> B (wmod b f w).
Proof.
  intros b f w (G & A1 & A2 & A3 & A4) E. unfold B, U. split; [exact G|]. split; [exact A1|]. split; [exact A2|].
  assert (IDS: forall b', c_id (conn_of b' (wmod b f w)) = c_id (conn_of b' w)). { intros b'. rewrite conn_mod_if. destruct (eqb b' b) eqn:X; [apply eqb_prop in X; subst; apply E|reflexivity]. }
  split; intros b'; rewrite !IDS; auto.
Qed.
Lemma B_H : forall h w, B w -> Hh h w. Proof. intros h w (G & _). exact G. Qed.
Lemma B_idlt : forall w b, B w -> (c_id (conn_of b w) < w_serial w)%nat. Proof. intros w b (_ & _ & _ & A & _). apply A. Qed.
Hint Resolve B_H : core.

(** ** States of a connection *)
Definition safe (c : conn) (log : list event) : Prop := c_fp c = true -> c_started c = true ->
  c_np c = true /\ exists sid t n k, In (EStart (c_id c) sid t n) log /\ c_cur c = t /\ c_sctx c = Some (sid, k).
Definition ready (c : conn) (log : list event) : Prop := (exists n, In (EStart (c_id c) (c_sid c) (c_next c) n) log) /\ c_end c = ends (c_sid c) (c_next c) /\
  c_sctx c = Some (c_sid c, 0%nat) /\ forall f l a b, ~ In (ESum (c_id c) f l a b) log.
(** between two passes *)
Definition rest (c : conn) (log : list event) : Prop := (c_fp c = true -> c_started c = false) /\ (c_np c = true -> ready c log) /\ (c_np c = false -> c_ptr c = true -> isend log (c_next c)).
(** its session runs: [s] summaries were made, [k] deltas drawn; [v]: the next session was looked after *)
Definition act (v : bool) (s k : nat) (sid t : Z) (c : conn) (log : list event) : Prop :=
  c_np c = true /\ (exists n, In (EStart (c_id c) sid t n) log) /\ c_cur c = t /\ c_curend c = ends sid t /\ c_sctx c = Some (sid, k) /\
  (forall f l a b, In (ESum (c_id c) f l a b) log -> f < Z.of_nat (N * s)) /\
  (forall j, (j < s)%nat -> summed log (c_id c) j \/ In (EMissed (c_id c)) log) /\ (v = true -> c_ptr c = true -> isend log (c_next c)).
Lemma isend_gr : forall w w' t, gr w w' -> isend (w_log w) t -> isend (w_log w') t.
Proof. intros w w' t G (i & sid & s & n & X & Y). exists i, sid, s, n. split; [eapply gr_in; eauto|exact Y]. Qed.
Lemma safe_gr : forall w w' c, gr w w' -> safe c (w_log w) -> safe c (w_log w').
Proof. intros w w' c G S F T. destruct (S F T) as (A & sid & t & n & k & X & Y). split; [exact A|]. exists sid, t, n, k. split; [eapply gr_in; eauto|exact Y]. Qed.
Lemma ready_gr : forall w w' c, gr w w' -> ready c (w_log w) -> ready c (w_log w').
Proof. intros w w' c G ((n & X) & A & B0 & C). split; [exists n; eapply gr_in; eauto|]. split; [exact A|]. split; [exact B0|]. intros f l a b Y. eapply C, gr_sum; eauto. Qed.
Lemma rest_gr : forall w w' c, gr w w' -> rest c (w_log w) -> rest c (w_log w').
Proof. intros w w' c G (A & B0 & C). split; [exact A|]. split; [intros X; eapply ready_gr; eauto|intros X Y; eapply isend_gr; eauto]. Qed.
Lemma act_gr : forall v s k sid t w w' c, gr w w' -> act v s k sid t c (w_log w) -> act v s k sid t c (w_log w').
Proof.
  intros v s k sid t w w' c G (A1 & (n & A2) & A3 & A4 & A5 & A6 & A7 & A8). split; [exact A1|]. split; [exists n; eapply gr_in; eauto|]. do 3 (split; [assumption|]). split; [intros f l a b X; eapply A6, gr_sum; eauto|].
  split; [|intros X Y; eapply isend_gr; eauto]. intros j J. destruct (A7 j J) as [(a & b & X)|X]; [left; exists a, b|right]; eapply gr_in; eauto.
Qed.
Lemma rest_safe : forall c log, rest c log -> safe c log. Proof. intros c log (A & _) F T. specialize (A F). congruence. Qed.
Lemma act_safe : forall v s k sid t c log, act v s k sid t c log -> safe c log.
Proof. intros v s k sid t c log (A1 & (n & A2) & A3 & A4 & A5 & _) F T. split; [exact A1|]. exists sid, t, n, k. auto. Qed.
Lemma cleared_rest : forall c log, cleared c -> rest c log.
Proof. intros c log (A & B0 & C & D & E & F & G & I0). split; [congruence|]. split; congruence. Qed.

Ltac asks := apply wp_bind; apply wp_ask; [apply B_H; assumption|].

Lemma deltas_ok : forall n b t w sid k, B w -> c_sctx (conn_of b w) = Some (sid, k) ->
  wp (add_deltas n b t) (fun t' w' => t' = acc sid k n t /\ B w' /\ conn_of b w' = set_sctx (Some (sid, k + n)%nat) (conn_of b w) /\ conn_of (negb b) w' = conn_of (negb b) w /\ w_log w' = w_log w) Hh w.
Proof.
  induction n as [|n IH]; intros b t w sid k V SC; cbn [Pow_Model.add_deltas Pow_Proofs.acc].
  - apply wp_ret. split; [reflexivity|]. split; [exact V|]. rewrite Nat.add_0_r. split; [destruct (conn_of b w); cbn in SC; subst; reflexivity|auto].
  - apply wp_bind. unfold Pow_Model.next_delta. apply wp_bind, wp_getc. rewrite SC. apply wp_bind, wp_modc, wp_ret. eapply wp_mono; [apply IH with (sid := sid) (k := S k)|].
    + apply B_mod; [exact V|reflexivity].
    + rewrite conn_mod. reflexivity.
    + intros t' w' (E & V' & E1 & E2 & E3). rewrite conn_mod in E1. rewrite conn_mod_other in E2. split; [exact E|]. split; [exact V'|]. split; [rewrite E1; replace (S k + n)%nat with (k + S n)%nat by lia; reflexivity|auto].
Qed.
Lemma rewind_names : forall b w sid k, B w -> c_sctx (conn_of b w) = Some (sid, k) ->
  wp (rewind b) (fun _ w' => B w' /\ conn_of b w' = set_sctx (Some (sid, 0%nat)) (conn_of b w) /\ conn_of (negb b) w' = conn_of (negb b) w /\ w_log w' = w_log w) Hh w.
Proof.
  intros b w sid k V SC. unfold rewind. apply wp_bind, wp_getc. rewrite SC. apply wp_modc. rewrite conn_mod, conn_mod_other. split; [apply B_mod; [exact V|reflexivity]|auto].
Qed.

(** ** The file of a session *)
Definition storable (b : bool) (newend : bool) (w : world) : Prop := let c := conn_of b w in c_fp c = true -> c_started c = true ->
  exists sid t n, In (EStart (c_id c) sid t n) (w_log w) /\ c_cur c = t /\
    if newend then (exists k, c_sctx c = Some (sid, k)) /\ In (EBroken (c_id c)) (w_log w)
    else c_curend c = ends sid t /\ (In (EBroken (c_id c)) (w_log w) \/ In (EMissed (c_id c)) (w_log w) \/ forall k, (k < K)%nat -> summed (w_log w) (c_id c) k).
Lemma write_names : forall m b aval newend w, B w -> storable b newend w ->
  wp (write_session m b aval newend) (fun _ w' => B w' /\ gr w w' /\ (exists s, conn_of b w' = set_sctx s (conn_of b w)) /\ conn_of (negb b) w' = conn_of (negb b) w) Hh w.
Proof.
  intros m b aval newend w V ST. unfold Pow_Model.write_session. apply wp_bind, wp_getc. set (c := conn_of b w).
  assert (SAME: forall w', like w w' -> B w' /\ gr w w' /\ (exists s, conn_of b w' = set_sctx s (conn_of b w)) /\ conn_of (negb b) w' = conn_of (negb b) w).
  { intros w' L. split; [eapply B_like; eauto|]. split; [now apply gr_like|]. rewrite !(like_conn _ _ _ L). split; [exists (c_sctx (conn_of b w)); now destruct (conn_of b w)|reflexivity]. }
  destruct (negb (c_fp c) || negb (c_started c) || negb (aval =? 0)) eqn:GO. { apply wp_ret. apply SAME, like_refl. }
  apply orb_false_iff in GO. destruct GO as (GO & _). apply orb_false_iff in GO. destruct GO as (FP & SS). apply negb_false_iff in FP, SS.
  destruct (ST FP SS) as (sid & t & n & IS & CU & EN). fold c in IS, CU, EN. cbv iota. apply wp_bind, wp_ret. cbn [negb]. asks. intros a w1 L1. pose proof (B_like _ _ L1 V) as V1.
  destruct (a_ok a); cbn [negb]; [|apply wp_ret; now apply SAME]. apply wp_bind.
  apply wp_mono with (Q := fun (e : option Z) w' => B w' /\ w_log w' = w_log w /\ (exists s, conn_of b w' = set_sctx s c) /\ conn_of (negb b) w' = conn_of (negb b) w /\
    forall x, e = Some x -> exists k, (0 < k <= npackets)%nat /\ x = stamp sid t k /\ (k = npackets \/ In (EBroken (c_id c)) (w_log w)) /\
      (In (EBroken (c_id c)) (w_log w) \/ In (EMissed (c_id c)) (w_log w) \/ forall k, (k < K)%nat -> summed (w_log w) (c_id c) k)).
  { assert (LC1: conn_of b w1 = c) by (apply like_conn; exact L1). assert (LC1': conn_of (negb b) w1 = conn_of (negb b) w) by (apply like_conn; exact L1). destruct newend.
    - destruct EN as ((k & SC) & BR). asks. intros a2 w2 L2. pose proof (B_like _ _ L2 V1) as V2. pose proof (like_trans _ _ _ L1 L2) as L12. destruct (a_ok a2); cbn [negb].
      + apply wp_bind. assert (SC2: c_sctx (conn_of b w2) = Some (sid, k)) by now rewrite (like_conn _ _ _ L12).
        eapply wp_mono; [apply (rewind_names b w2 sid k V2 SC2)|]. cbv beta. intros _ w3 (V3 & E3 & O3 & G3).
        apply wp_bind. eapply wp_mono; [eapply (deltas_ok _ b _ w3 sid 0 V3); rewrite E3; reflexivity|]. cbv beta. intros x w4 (EX & V4 & E4 & O4 & G4). apply wp_ret.
        split; [exact V4|]. assert (LG: w_log w2 = w_log w) by apply L12. split; [congruence|]. split; [eexists; rewrite E4, E3, (like_conn _ _ _ L12); reflexivity|].
        split; [rewrite O4, O3; apply like_conn; exact L12|]. intros y [= <-]. rewrite EX, acc_stamp, CU. set (z := Z.to_nat (a_num a2)). exists (S (z mod npackets)).
        pose proof npos. pose proof (Nat.mod_upper_bound z npackets ltac:(lia)). split; [lia|]. auto.
      + apply wp_ret. split; [exact V2|]. split; [apply L12|]. rewrite !(like_conn _ _ _ L12). split; [exists (c_sctx c); unfold c; now destruct (conn_of b w)|]. split; [reflexivity|discriminate].
    - apply wp_ret. split; [exact V1|]. split; [apply L1|]. rewrite LC1, LC1'. split; [exists (c_sctx c); unfold c; now destruct (conn_of b w)|]. split; [reflexivity|]. intros x [= <-]. destruct EN as (CE & EN).
      exists npackets. pose proof npos. split; [lia|]. rewrite CE, stamp_ends. auto. }
  intros e w2 (V2 & G2 & (s2 & E2) & O2 & X). destruct e as [x|]; [|apply wp_ret; split; [exact V2|]; split; [now apply gr_log|]; split; [exists s2; exact E2|exact O2]].
  destruct (X x eq_refl) as (k & KR & XE & KB & AL). clear X. subst x.
  asks. intros a3 w3 L3. pose proof (B_like _ _ L3 V2) as V3. assert (G3: w_log w3 = w_log w) by (destruct L3 as (_ & _ & _ & L3); congruence).
  assert (E3: conn_of b w3 = set_sctx s2 c) by now rewrite (like_conn _ _ _ L3). assert (O3: conn_of (negb b) w3 = conn_of (negb b) w) by now rewrite (like_conn _ _ _ L3).
  apply wp_bind. apply wp_mono with (Q := fun _ w' => w' = w3). { destruct ((a_num a3 =? 0) || (a_num a3 =? 1)); [now apply wp_ret|now apply wp_stop, B_H]. }
  intros _ w' ->. apply wp_bind.
  set (P := fun w' => B w' /\ gr w w' /\ conn_of b w' = set_sctx s2 c /\ conn_of (negb b) w' = conn_of (negb b) w).
  assert (FO: forall w', P w' -> file_of (w_log w') (c_id c) (c_cur c) (stamp sid t k)).
  { intros w' (_ & GR & _). exists sid, t, n, k. split; [eapply gr_in; eauto|]. split; [exact CU|]. split; [exact KR|]. split; [reflexivity|]. destruct KB as [KB|KB]; [now left|right; eapply gr_in; eauto]. }
  assert (IL: forall w', P w' -> (c_id c < w_serial w')%nat). { intros w' (V' & _ & E' & _). pose proof (B_idlt w' b V') as X. now rewrite E' in X. }
  assert (PL: forall w' w'', P w' -> like w' w'' -> P w''). { intros w' w'' (A1 & A2 & A3 & A4) L. split; [eapply B_like; eauto|]. split; [eapply gr_trans; [exact A2|now apply gr_like]|]. now rewrite !(like_conn _ _ _ L). }
  assert (PE: forall w' e, P w' -> fits (w_log w') e -> about e = c_id c -> is_sum e = false -> P (wemit e w')).
  { intros w' e Pw FI AB IS'. pose proof (IL w' Pw) as IL'. destruct Pw as (A1 & A2 & A3 & A4). split; [apply B_emit; auto; now rewrite AB|]. split; [eapply gr_trans; [exact A2|now apply gr_emit]|]. now rewrite !conn_emit. }
  assert (PB: forall w', P w' -> B w') by (intros w' (A1 & _); exact A1).
  assert (P3: P w3). { split; [exact V3|]. split; [now apply gr_log|]. auto. }
  apply wp_mono with (Q := fun _ w' => P w').
  { apply wp_when; intros _; [|exact P3]. apply wp_emit. apply PE; [exact P3| |reflexivity|reflexivity]. split; [now apply FO|]. now rewrite G3. }
  intros _ w4 P4. apply wp_bind. apply wp_ask; [apply B_H, PB, P4|]. intros a4 w5 L5. pose proof (PL _ _ P4 L5) as P5. apply wp_bind.
  apply wp_mono with (Q := fun _ w' => P w').
  { destruct (a_ok a4); cbn [negb]; [|apply wp_ret; exact P5]. apply wp_bind. apply wp_ask; [apply B_H, PB, P5|]. intros a5 w6 L6. pose proof (PL _ _ P5 L6) as P6. apply wp_bind.
    apply wp_mono with (Q := fun _ w' => w' = w6). { destruct ((a_num a5 =? 0) || (a_num a5 =? 1)); [now apply wp_ret|now apply wp_stop, B_H, PB]. }
    intros _ w' ->. apply wp_bind. apply wp_mono with (Q := fun _ w' => P w').
    { apply wp_when; intros _; [|exact P6]. apply wp_emit. apply PE; [exact P6| |reflexivity|reflexivity]. now apply FO. }
    intros _ w7 P7. apply wp_ret. exact P7. }
  intros nm w6 P6. cbv beta in P6. destruct (printfiles && _); [apply wp_stop, B_H, PB, P6|]. apply wp_ret. destruct P6 as (A1 & A2 & A3 & A4). split; [exact A1|]. split; [exact A2|]. split; [exists s2; exact A3|exact A4].
Qed.

(** ** Signals *)
Lemma close_cntrl_names : forall b w, B w -> wp (close_cntrl b) (fun _ w' => B w' /\ gr w w' /\ conn_of b w' = set_cntrl false (conn_of b w) /\ conn_of (negb b) w' = conn_of (negb b) w) Hh w.
Proof.
  intros b w V. unfold close_cntrl. apply wp_bind, wp_getc. apply wp_when; intros E.
  - apply wp_bind, wp_emit, wp_modc. rewrite conn_mod, conn_mod_other, !conn_emit. split; [|split; [|auto]].
    + apply B_mod; [|reflexivity]. apply B_emit; [exact V|exact Logic.I|apply B_idlt; exact V].
    + eapply gr_trans; [apply (gr_emit (EOver (c_id (conn_of b w)))); reflexivity|now apply gr_log].
  - split; [exact V|]. split; [apply gr_refl|]. split; [destruct (conn_of b w); cbn in E; subst; reflexivity|reflexivity].
Qed.
Lemma reset_names : forall m p w, B w -> safe (conn_of p w) (w_log w) ->
  wp (reset_session m p (negb p)) (fun _ w' => B w' /\ gr w w' /\ cleared (conn_of p w') /\ conn_of (negb p) w' = set_ptr false (conn_of (negb p) w)) Hh w.
Proof.
  intros m p w V SF. unfold Pow_Model.reset_session. apply wp_bind, wp_getc. apply wp_bind.
  apply wp_mono with (Q := fun _ w' => B w' /\ gr w w' /\ forall b, conn_of b w' = conn_of b w).
  { destruct (c_np (conn_of p w) && c_stop (conn_of p w) && c_cntrl (conn_of p w)).
    - apply wp_bind, wp_emit. assert (V1: B (wemit (EOver (c_id (conn_of p w))) w)) by (apply B_emit; [exact V|exact Logic.I|apply B_idlt; exact V]).
      asks. intros a w1 L1. apply wp_ret. split; [eapply B_like; eauto|]. split; [eapply gr_trans; [apply (gr_emit (EOver (c_id (conn_of p w)))); reflexivity|now apply gr_like]|]. intros b. rewrite (like_conn _ _ _ L1). apply conn_emit.
    - apply wp_ret. split; [exact V|]. split; [apply gr_refl|auto]. }
  intros aval w1 (V1 & C1 & E1). apply wp_bind.
  apply wp_mono with (Q := fun _ w' => B w' /\ gr w w' /\ (forall b, conn_of b w' = conn_of b w) /\ (c_np (conn_of p w) = true -> In (EBroken (c_id (conn_of p w))) (w_log w'))).
  { apply wp_when; intros NP; [|split; [exact V1|]; split; [exact C1|]; split; [exact E1|congruence]]. apply wp_emit.
    split; [apply B_emit; [exact V1|exact Logic.I|cbn [about]; rewrite <- E1; apply B_idlt; exact V1]|]. split; [eapply gr_trans; [exact C1|now apply gr_emit]|].
    split; [intros b; rewrite conn_emit; apply E1|]. intros _. apply in_snoc. now right. }
  intros _ w2 (V2 & C2 & E2 & BR). apply wp_bind. eapply wp_mono; [apply write_names; [exact V2|]|].
  { intros FP ST. rewrite E2 in *. destruct (SF FP ST) as (NP & sid & t & n & k & X & Y & Z0). exists sid, t, n. split; [eapply gr_in; eauto|]. split; [exact Y|]. split; [eauto|auto]. }
  intros _ w3 (V3 & C3 & (s & E3) & O3). cbv beta in *. apply wp_bind, wp_modc.
  assert (V4: B (wmod p (set_fetch false) w3)) by (apply B_mod; [exact V3|reflexivity]).
  apply wp_bind. eapply wp_mono; [apply close_cntrl_names; exact V4|]. intros _ w5 (V5 & C5 & E5 & O5). rewrite conn_mod in E5. rewrite conn_mod_other in O5.
  apply wp_bind, wp_modc, wp_modc. set (f := fun c => set_fp false _).
  assert (E6: conn_of p (wmod (negb p) (set_ptr false) (wmod p f w5)) = f (conn_of p w5)). { rewrite conn_mod_if. replace (eqb p (negb p)) with false by now destruct p. apply conn_mod. }
  split; [apply B_mod; [apply B_mod; [exact V5|reflexivity]|reflexivity]|]. split.
  { eapply gr_trans; [exact C2|]. eapply gr_trans; [exact C3|]. eapply gr_trans; [exact C5|]. now apply gr_log. }
  rewrite E6, E5, E3. split; [unfold cleared, f; cbn; auto 10|]. rewrite conn_mod, conn_mod_other, O5, O3, E2. reflexivity.
Qed.
Definition closable (w : world) : Prop := B w /\ forall b, safe (conn_of b w) (w_log w).
Definition shut (w w' : world) : Prop := B w' /\ gr w w' /\ closed w'.
Lemma close_names : forall m w, closable w -> wp (close_sessions m) (fun _ w' => shut w w') Hh w.
Proof.
  intros m w (V & SF). unfold Pow_Model.close_sessions. apply wp_bind. eapply wp_mono; [apply (reset_names m false w V (SF false))|]. cbn [negb]. intros _ w1 (V1 & C1 & CL & O1).
  eapply wp_mono; [apply (reset_names m true w1 V1)|].
  { rewrite O1. intros FP ST. destruct (SF true FP ST) as (A & sid & t & n & k & X & Y). split; [exact A|]. exists sid, t, n, k. split; [eapply gr_in; eauto|exact Y]. }
  cbn [negb]. intros _ w2 (V2 & C2 & CL2 & KP). split; [exact V2|]. split; [eapply gr_trans; eauto|].
  intros [|]; [exact CL2|]. rewrite KP. destruct CL as (A & B0 & C & D & E & F & G & I0). unfold cleared. cbn. auto 10.
Qed.
Lemma closable_like : forall w w', like w w' -> closable w -> closable w'.
Proof. intros w w' L (A & C). split; [eapply B_like; eauto|]. intros b. rewrite (like_conn _ _ _ L). eapply safe_gr; [apply gr_like; exact L|apply C]. Qed.
Lemma sig_names : forall d w, closable w -> wp (sig_check d) (fun r w' => if r then shut w w' else like w w') Hh w.
Proof.
  intros [|d] w V; cbn [Pow_Model.sig_check]; [apply wp_stop; apply B_H, V|]. pose proof (proj1 V) as V0.
  asks. intros a w1 L1. apply wp_bind, wp_get_flags. intros f1. apply wp_bind, wp_set_flags. intros w2 L2. apply wp_bind.
  assert (L12: like w w2) by (eapply like_trans; eauto). pose proof (closable_like _ _ L12 V) as V2.
  apply wp_flags. cbn [fst snd]. apply wp_bind.
  apply wp_mono with (Q := fun _ w' => (like w w' /\ w_hup w' = false) \/ (shut w w' /\ w_hup w' || w_term w' = true)).
  { apply wp_when; intros F2.
    - eapply wp_mono; [apply wp_steady; [now apply steady_close|apply close_names; exact V2]|]. intros _ w3 ((A1 & A2 & A3) & FL). injection FL as FL1 FL2. right. split; [|now rewrite FL1, FL2].
      split; [exact A1|]. split; [eapply gr_trans; [apply gr_like; exact L12|exact A2]|exact A3].
    - left. split; [exact L12|]. apply orb_false_iff in F2. apply F2. }
  intros _ w3 X. apply wp_bind, wp_flags. cbn [fst snd].
  destruct (w_term w3) eqn:T3. { apply wp_stop. destruct X as [(X & _)|(X & _)]; [apply B_H; eapply B_like; eauto|apply B_H, X]. }
  destruct (w_hup w3) eqn:H3.
  - destruct X as [(_ & X)|((A1 & A2 & A3) & _)]; [discriminate|]. apply wp_bind, wp_set_flags. intros w4 L4. apply wp_ret. split; [eapply B_like; eauto|]. split; [eapply gr_trans; [exact A2|now apply gr_like]|].
    intros b. rewrite (like_conn _ _ _ L4). apply A3.
  - apply wp_ret. destruct X as [(X & _)|(_ & X)]; [exact X|discriminate].
Qed.
Lemma check_names : forall w, closable w -> wp check (fun r w' => if r then shut w w' else like w w') Hh w. Proof. apply sig_names. Qed.

(** ** Setup of a session *)
Lemma failed_names : forall w, bad (wemit EFailed w). Proof. intros w. apply in_snoc. now right. Qed.
Lemma fetch_clean_names : forall p w, wp (fetch_clean p) (fun r w' => r = true /\ bad w') Hh w.
Proof. intros p w. unfold fetch_clean. apply wp_bind, wp_modc, wp_bind, wp_emit, wp_ret. split; [reflexivity|apply failed_names]. Qed.
Lemma sctx_clean_names : forall p w, wp (sctx_clean p) (fun r w' => r = true /\ bad w') Hh w.
Proof. intros p w. unfold sctx_clean. apply wp_bind, wp_modc. apply fetch_clean_names. Qed.
Lemma cntrl_clean_names : forall p w, wp (cntrl_clean p) (fun r w' => r = true /\ bad w') Hh w.
Proof. intros p w. unfold cntrl_clean, close_cntrl. apply wp_bind, wp_bind, wp_getc. apply wp_when; intros _; [apply wp_bind, wp_emit, wp_modc|]; apply sctx_clean_names. Qed.
Lemma file_clean_names : forall p w, wp (file_clean p) (fun r w' => r = true /\ bad w') Hh w.
Proof. intros p w. unfold file_clean. apply wp_bind, wp_modc. apply cntrl_clean_names. Qed.

(** outcome of a setup on [p] *)
Definition SetupQ (p : bool) (w0 : world) (r : bool) (w' : world) : Prop :=
  if r then shut w0 w' \/ bad w'
  else B w' /\ gr w0 w' /\ rest (conn_of p w') (w_log w') /\ exists v n, conn_of (negb p) w' = set_ptr v (set_next n (conn_of (negb p) w0)) /\ (v = true -> isend (w_log w') n).
Lemma clean_Q : forall p w0 m w, wp m (fun r w' => r = true /\ bad w') Hh w -> wp m (SetupQ p w0) Hh w.
Proof. intros p w0 m w X. eapply wp_mono; [exact X|]. intros r w' (-> & Y). now right. Qed.

(** during a setup on [p]; [g]: what is known of the connection *)
Definition Mid (g : conn -> list event -> Prop) (p : bool) (w0 w : world) : Prop :=
  B w /\ gr w0 w /\ conn_of (negb p) w = conn_of (negb p) w0 /\ c_np (conn_of p w) = false /\ c_started (conn_of p w) = false /\ g (conn_of p w) (w_log w).
Lemma Mid_like : forall g p w0 w w', Mid g p w0 w -> like w w' -> Mid g p w0 w'.
Proof.
  intros g p w0 w w' (A1 & A2 & A3 & A4 & A5 & A6) L. split; [eapply B_like; eauto|]. split; [eapply gr_trans; [exact A2|now apply gr_like]|]. rewrite !(like_conn _ _ _ L).
  destruct L as (_ & _ & _ & L). rewrite L. auto 10.
Qed.
Lemma Mid_B : forall g p w0 w, Mid g p w0 w -> B w. Proof. intros g p w0 w (A & _). exact A. Qed.
Lemma Mid_closable : forall g p w0 w, safe (conn_of (negb p) w0) (w_log w0) -> Mid g p w0 w -> closable w.
Proof.
  intros g p w0 w SF (A1 & A2 & A3 & A4 & A5 & A6). split; [exact A1|]. intros b. destruct (bool_dec b p) as [->|NE]; [intros _; congruence|]. rewrite (the_other _ _ NE), A3. eapply safe_gr; eauto.
Qed.
Lemma Mid_mod : forall (g' g : conn -> list event -> Prop) p f w0 w, Mid g p w0 w -> (forall c, c_id (f c) = c_id c) -> c_np (f (conn_of p w)) = false -> c_started (f (conn_of p w)) = false ->
  (g (conn_of p w) (w_log w) -> g' (f (conn_of p w)) (w_log w)) -> Mid g' p w0 (wmod p f w).
Proof.
  intros g' g p f w0 w (A1 & A2 & A3 & A4 & A5 & A6) I1 I2 I3 I4. split; [apply B_mod; auto|]. split; [eapply gr_trans; [exact A2|now apply gr_log]|]. rewrite conn_mod, conn_mod_other. auto 10.
Qed.
Lemma shut_gr : forall w0 w w', gr w0 w -> shut w w' -> shut w0 w'. Proof. intros w0 w w' G (A1 & A2 & A3). split; [exact A1|]. split; [eapply gr_trans; eauto|exact A3]. Qed.
Lemma Mid_ask : forall A g p w0 w (k : ans -> M A) Q, Mid g p w0 w -> (forall a w', Mid g p w0 w' -> wp (k a) Q Hh w') -> wp (bind ask k) Q Hh w.
Proof. intros A g p w0 w k Q MW X. apply wp_bind, wp_ask; [apply B_H; eapply Mid_B; eauto|]. intros a w' L. apply X. eapply Mid_like; eauto. Qed.
Lemma Mid_check : forall g p w0 w (k : bool -> M bool), safe (conn_of (negb p) w0) (w_log w0) -> Mid g p w0 w -> (forall w', Mid g p w0 w' -> wp (k false) (SetupQ p w0) Hh w') -> k true = ret true ->
  wp (bind check k) (SetupQ p w0) Hh w.
Proof.
  intros g p w0 w k SF MW X KT. apply wp_bind. eapply wp_mono; [apply check_names; eapply Mid_closable; eauto|]. cbv beta. intros r w' Y. destruct r.
  - rewrite KT. apply wp_ret. left. eapply shut_gr; [apply MW|exact Y].
  - apply X. eapply Mid_like; eauto.
Qed.
Lemma sleep_names : forall n g p w0 w, safe (conn_of (negb p) w0) (w_log w0) -> Mid g p w0 w -> wp (sleep n) (fun r w' => if r then shut w0 w' else Mid g p w0 w') Hh w.
Proof.
  induction n as [|n IH]; intros g p w0 w SF MW; cbn [Pow_Model.sleep].
  - apply wp_stop. apply B_H. eapply Mid_B; eauto.
  - eapply Mid_ask; [exact MW|]. intros a w1 M1. destruct (a_ok a); [now apply wp_ret|]. apply wp_bind. eapply wp_mono; [apply check_names; eapply Mid_closable; eauto|]. cbv beta. intros r w2 X. destruct r.
    + apply wp_ret. eapply shut_gr; [apply M1|exact X].
    + apply IH; [exact SF|]. eapply Mid_like; eauto.
Qed.

(** what is known of the time the next session starts *)
Definition gEnd (c : conn) (log : list event) : Prop := c_ptr c = true -> isend log (c_next c).
Definition gNow (now : Z) (c : conn) (log : list event) : Prop := 0 <= c_next c < 2 ^ 64 /\ (c_next c = now \/ now <= c_next c /\ isend log (c_next c)).
Definition gRun (c : conn) (log : list event) : Prop := (exists n, In (EStart (c_id c) (c_sid c) (c_next c) n) log) /\ forall f l a b, ~ In (ESum (c_id c) f l a b) log.
Lemma isend_range : forall log t, isend log t -> 0 <= t < 2 ^ 64. Proof. intros log t (i & sid & s & n & _ & ->). apply ends_range. Qed.
Lemma start_names : forall now p w0 w, Mid (gNow now) p w0 w ->
  Mid gRun p w0 (wmod p (fun c => set_id (w_serial w) (set_stop true (set_started false c))) (wemit (EStart (w_serial w) (c_sid (conn_of p w)) (c_next (conn_of p w)) now) (bump w))).
Proof.
  intros now p w0 w ((G & U1 & U2 & U3 & U4) & A2 & A3 & A4 & A5 & (A6 & A7)). set (e := EStart _ _ _ _). set (f := fun c => set_id _ _).
  assert (FR: forall x, In x (w_log w) -> about x <> w_serial w) by (intros x X; specialize (U2 x X); lia).
  assert (CB: forall b, conn_of b (wemit e (bump w)) = conn_of b w) by (intros b; rewrite conn_emit; now destruct b).
  assert (IP: c_id (conn_of p (wmod p f (wemit e (bump w)))) = w_serial w) by now rewrite conn_mod.
  assert (IQ: c_id (conn_of (negb p) (wmod p f (wemit e (bump w)))) = c_id (conn_of (negb p) w)) by now rewrite conn_mod_other, CB.
  assert (GR: gr w0 (wmod p f (wemit e (bump w)))). { eapply gr_trans; [exact A2|]. exists [e]. split; [reflexivity|]. now repeat constructor. }
  split; [|split; [exact GR|]].
  - split.
    + apply (Good_snoc (w_log w)); [exact G|]. split; [lia|]. split; [exact A6|]. split; [|exact A7]. intros sid t n X. now apply (FR _ X).
    + split; [cbn; lia|]. split. { intros x X. apply in_snoc in X. change (w_serial (wmod p f (wemit e (bump w)))) with (S (w_serial w)). destruct X as [X| ->]; [specialize (U2 x X); lia|cbn; lia]. }
      change (w_serial (wmod p f (wemit e (bump w)))) with (S (w_serial w)). pose proof (U3 (negb p)) as UQ.
      split; intros b; (destruct (bool_dec b p) as [->|NE]; [|rewrite (the_other _ _ NE)]); rewrite ?negb_involutive, ?IP, ?IQ; lia.
  - rewrite conn_mod_other, conn_mod, !CB. split; [exact A3|]. split; [exact A4|]. split; [reflexivity|]. split.
    + exists now. apply in_snoc. right. reflexivity.
    + intros g l a b X. apply in_snoc in X. destruct X as [X|X]; [now apply (FR _ X)|discriminate].
Qed.

Lemma setup_rest_names : forall p w0 w, safe (conn_of (negb p) w0) (w_log w0) -> Mid gEnd p w0 w -> wp (setup_rest p (negb p)) (SetupQ p w0) Hh w.
Proof.
  intros p w0 w SF MW. unfold Pow_Model.setup_rest. apply wp_bind, wp_getc. apply wp_bind.
  apply wp_mono with (Q := fun (_ : bool) w' => Mid gEnd p w0 w').
  { destruct (c_sctx (conn_of p w)); [now apply wp_ret|]. eapply Mid_ask; [exact MW|]. intros a w1 M1. apply wp_bind. apply wp_when; intros _; [apply wp_modc|]; apply wp_ret; [|exact M1].
    eapply Mid_mod; [exact M1|reflexivity|apply M1|apply M1|auto]. }
  intros made w1 M1. destruct made; cbn [negb]; [|apply clean_Q, fetch_clean_names].
  eapply Mid_ask; [exact M1|]. intros a w2 M2. destruct (a_ok a); cbn [negb].
  2:{ eapply Mid_check; [exact SF|exact M2| |reflexivity]. intros w3 _. apply clean_Q, sctx_clean_names. }
  apply wp_bind, wp_modc. eapply Mid_check; [exact SF|eapply Mid_mod with (g' := gEnd); [exact M2|reflexivity|apply M2|apply M2|auto]| |reflexivity].
  intros w3 M3. eapply Mid_ask; [exact M3|]. clear a. intros a w4 M4. destruct (a_ok a); cbn [negb]; [|apply clean_Q, cntrl_clean_names].
  apply wp_bind, wp_take_first. intros first w5 L5. pose proof (Mid_like _ _ _ _ _ M4 L5) as M5. cbv zeta. set (now := if first then _ else _).
  assert (RN: 0 <= now < 2 ^ 64). { unfold now. destruct first; unfold OWPNum64Add, u64; change M64 with (2 ^ 64); apply Z.mod_pos_bound; reflexivity. }
  apply wp_bind, wp_getc. apply wp_bind.
  apply wp_mono with (Q := fun _ w' => Mid (gNow now) p w0 w').
  { destruct (c_ptr (conn_of p w5) && negb (c_next (conn_of p w5) <? now)) eqn:C.
    - apply wp_ret. destruct M5 as (A1 & A2 & A3 & A4 & A5 & A6). do 5 (split; [assumption|]). apply andb_true_iff in C. destruct C as (C1 & C2). specialize (A6 C1). split; [eapply isend_range; eauto|]. right. split; [lia|exact A6].
    - apply wp_modc. eapply Mid_mod; [exact M5|reflexivity|apply M5|apply M5|]. intros _. split; [exact RN|now left]. }
  clearbody now. intros _ w6 M6. eapply Mid_ask; [exact M6|]. clear a. intros a w7 M7. destruct (a_ok a); cbn [negb]; [|apply clean_Q, cntrl_clean_names].
  apply wp_bind, wp_modc. eapply Mid_ask; [eapply Mid_mod with (g' := gNow now); [exact M7|reflexivity|apply M7|apply M7|auto]|]. clear a. intros a w8 M8.
  destruct (a_ok a); cbn [negb]; [|apply clean_Q, file_clean_names]. eapply Mid_check; [exact SF|exact M8| |reflexivity]. intros w9 M9. apply wp_bind, wp_getc.
  remember (c_next (conn_of p w9)) as start eqn:ES. destruct (c_cntrl (conn_of p w9)); cbn [negb]; [|apply wp_stop, B_H; eapply Mid_B; eauto].
  assert (M9': Mid (fun c log => gNow now c log /\ c_next c = start) p w0 w9). { destruct M9 as (A1 & A2 & A3 & A4 & A5 & A6). split; [exact A1|]. auto 10. }
  eapply Mid_ask; [exact M9'|]. clear a. intros a w10 M10. destruct (a_ok a); cbn [negb]; [|apply clean_Q, file_clean_names].
  apply wp_bind, wp_modc. eapply Mid_check; [exact SF|eapply Mid_mod with (g' := fun c log => gNow now c log /\ c_next c = start); [exact M10|reflexivity|apply M10|apply M10|auto]| |reflexivity].
  intros w11 M11. eapply Mid_ask; [exact M11|]. clear a. intros a w12 M12. apply wp_bind, wp_getc. destruct (negb (a_ok a) || negb (c_cntrl (conn_of p w12))); [apply clean_Q, cntrl_clean_names|].
  assert (SX: start = c_next (conn_of p w12)) by (symmetry; apply M12). assert (M12': Mid (gNow now) p w0 w12). { destruct M12 as (A1 & A2 & A3 & A4 & A5 & A6 & A7). split; [exact A1|]. auto 10. }
  apply wp_bind, wp_new. apply wp_bind, wp_emit. apply wp_bind, wp_modc. rewrite SX. pose proof (start_names _ _ _ _ M12') as M13. clear SX.
  eapply Mid_check; [exact SF|exact M13| |reflexivity]. intros w14 M14. eapply Mid_ask; [exact M14|]. clear a. intros a w15 M15. destruct (a_ok a); cbn [negb]; [|apply clean_Q, cntrl_clean_names].
  destruct M15 as (A1 & A2 & A3 & A4 & A5 & A6 & A7).
  apply wp_bind, wp_modc. set (f := fun c => set_np true _). apply wp_bind, wp_getc. rewrite conn_mod. change (c_next (f (conn_of p w15))) with (c_next (conn_of p w15)).
  set (c := conn_of p w15) in *. apply wp_bind.
  eapply wp_mono; [apply (deltas_ok _ p _ (wmod p f w15) (c_sid c) 0); [apply B_mod; [exact A1|reflexivity]|rewrite conn_mod; reflexivity]|]. cbv beta. rewrite conn_mod, conn_mod_other. intros e w16 (EE & V16 & E16 & O16 & G16).
  apply wp_bind, wp_modc. apply wp_bind.
  eapply wp_mono; [apply (rewind_names p (wmod p (set_end e) w16) (c_sid c) (0 + npackets)); [apply B_mod; [exact V16|reflexivity]|rewrite conn_mod, E16; reflexivity]|]. cbv beta. rewrite conn_mod, conn_mod_other, E16. intros _ w17 (V17 & E17 & O17 & G17).
  apply wp_bind, wp_modc, wp_ret. assert (GL: w_log w17 = w_log w15) by (rewrite G17; exact G16).
  assert (EV: e = ends (c_sid c) (c_next c)) by (rewrite EE, acc_stamp; apply stamp_ends).
  split; [apply B_mod; [exact V17|reflexivity]|]. split; [eapply gr_trans; [exact A2|apply gr_log; exact GL]|]. change (w_log (wmod (negb p) (fun c => set_ptr true (set_next e c)) w17)) with (w_log w17). rewrite GL.
  split.
  - rewrite conn_mod_if. replace (eqb p (negb p)) with false by now destruct p. rewrite E17. unfold rest. cbn. fold c. split; [intros _; exact A5|]. split; [intros _|discriminate].
    unfold ready. cbn. fold c. split; [exact A6|]. split; [exact EV|]. split; [reflexivity|exact A7].
  - exists true, e. rewrite conn_mod, O17, O16, A3. split; [reflexivity|]. intros _. destruct A6 as (n & A6). exists (c_id c), (c_sid c), (c_next c), n. auto.
Qed.

Lemma setup_names : forall p limit w, B w -> rest (conn_of p w) (w_log w) -> safe (conn_of (negb p) w) (w_log w) ->
  wp (setup_session p (negb p) limit) (fun r w' => (r = false /\ w' = w /\ c_np (conn_of p w) = true) \/ SetupQ p w r w') Hh w.
Proof.
  intros p limit w V RS SF. unfold Pow_Model.setup_session. apply wp_bind, wp_getc. destruct (c_np (conn_of p w)) eqn:NP; [apply wp_ret; auto|].
  apply wp_mono with (Q := SetupQ p w); [|auto]. apply wp_bind, wp_modc. apply wp_bind. eapply wp_mono; [apply close_cntrl_names; apply B_mod; [exact V|reflexivity]|]. cbv beta. rewrite conn_mod, conn_mod_other. intros _ w1 (V1 & G1 & E1 & O1).
  apply wp_bind, wp_modc. set (f := fun c => set_fp false _).
  assert (GR1: gr w w1) by exact G1.
  assert (M2: Mid (fun c log => gEnd c log /\ c_fp c = false) p w (wmod p f w1)).
  { split; [apply B_mod; [exact V1|reflexivity]|]. split; [exact GR1|]. rewrite conn_mod, conn_mod_other, E1. split; [exact O1|]. split; [exact NP|]. split; [reflexivity|]. split; [|reflexivity]. intros PT. eapply isend_gr; [exact GR1|]. apply RS; [exact NP|exact PT]. }
  generalize dependent (wmod p f w1). intros w2 M2. apply wp_bind.
  apply wp_mono with (Q := fun (r : bool) w' => if r then shut w w' else Mid (fun c log => gEnd c log /\ c_fp c = false) p w w').
  { destruct ((0 <? retry) && (0 <? c_prev (conn_of p w))); [|now apply wp_ret]. eapply Mid_ask; [exact M2|]. intros a w3 M3. destruct (a_ok a); cbn [negb]; [|apply wp_stop, B_H; eapply Mid_B; eauto].
    destruct (time_of a <? _); [|now apply wp_ret]. apply wp_bind, wp_remaining. intros n. now apply sleep_names. }
  intros s w3 M3. destruct s; [apply wp_ret; left; exact M3|]. eapply Mid_ask; [exact M3|]. intros a w4 M4. destruct (a_ok a); cbn [negb]; [|apply wp_stop, B_H; eapply Mid_B; eauto].
  destruct (match limit with Some l => l <? time_of a | None => false end).
  - apply wp_bind, wp_getc. apply wp_bind, wp_modc, wp_ret. destruct M4 as (A1 & A2 & A3 & A4 & A5 & A6 & A7).
    split; [apply B_mod; [exact A1|intros c; now destruct (c_ptr (conn_of p w4))]|]. split; [exact A2|]. change (w_log (wmod (negb p) _ w4)) with (w_log w4).
    split.
    + rewrite conn_mod_if. replace (eqb p (negb p)) with false by now destruct p. split; [congruence|]. split; [congruence|]. intros _ PT. now apply A6.
    + rewrite conn_mod, A3. destruct (c_ptr (conn_of p w4)) eqn:PT; [exists true, (c_next (conn_of p w4)); auto|]. exists false, (c_next (conn_of (negb p) w)). split; [now destruct (conn_of (negb p) w)|discriminate].
  - eapply Mid_ask; [exact M4|]. clear a. intros a w5 M5. apply wp_bind, wp_modc.
    eapply Mid_check; [exact SF|eapply Mid_mod with (g' := gEnd); [exact M5|reflexivity|apply M5|apply M5|intros (X & _); exact X]| |reflexivity]. intros w6 M6. now apply setup_rest_names.
Qed.

(** ** A session and its summaries *)
Definition A (p v : bool) (s k : nat) (sid t : Z) (w : world) : Prop := B w /\ act v s k sid t (conn_of p w) (w_log w) /\ rest (conn_of (negb p) w) (w_log w).
Lemma A_like : forall p v s k sid t w w', like w w' -> A p v s k sid t w -> A p v s k sid t w'.
Proof. intros p v s k sid t w w' L (A1 & A2 & A3). split; [eapply B_like; eauto|]. rewrite !(like_conn _ _ _ L). destruct L as (_ & _ & _ & ->). auto. Qed.
Lemma A_closable : forall p v s k sid t w, A p v s k sid t w -> closable w.
Proof. intros p v s k sid t w (A1 & A2 & A3). split; [exact A1|]. intros b. destruct (bool_dec b p) as [->|NE]; [eapply act_safe; eauto|]. rewrite (the_other _ _ NE). now apply rest_safe. Qed.
Lemma A_B : forall p v s k sid t w, A p v s k sid t w -> B w. Proof. intros p v s k sid t w (X & _). exact X. Qed.
Lemma A_gr : forall p v s k sid t w w', A p v s k sid t w -> B w' -> gr w w' -> conn_of (negb p) w' = conn_of (negb p) w -> act v s k sid t (conn_of p w') (w_log w) -> A p v s k sid t w'.
Proof. intros p v s k sid t w w' (A1 & A2 & A3) B' G E X. split; [exact B'|]. rewrite E. split; [eapply act_gr; eauto|eapply rest_gr; eauto]. Qed.
Lemma A_emit : forall p v s k sid t e w, A p v s k sid t w -> fits (w_log w) e -> (about e < w_serial w)%nat -> is_sum e = false -> A p v s k sid t (wemit e w).
Proof. intros p v s k sid t e w AW F AB NS. eapply A_gr; [exact AW|apply B_emit; [apply AW|exact F|exact AB]|now apply gr_emit|apply conn_emit|rewrite conn_emit; apply AW]. Qed.
Lemma A_mod : forall p v s k sid t f w, A p v s k sid t w -> (forall c, c_id (f c) = c_id c) -> act v s k sid t (f (conn_of p w)) (w_log w) -> A p v s k sid t (wmod p f w).
Proof. intros p v s k sid t f w AW I1 I2. eapply A_gr; [exact AW|apply B_mod; [apply AW|exact I1]|now apply gr_log|apply conn_mod_other|now rewrite conn_mod]. Qed.
Lemma A_id : forall p v s k sid t w, A p v s k sid t w -> (c_id (conn_of p w) < w_serial w)%nat. Proof. intros p v s k sid t w AW. apply B_idlt, AW. Qed.
(** between two passes *)
Definition F (w : world) : Prop := B w /\ (forall b, rest (conn_of b w) (w_log w)) /\ (c_np (w_c0 w) = false \/ c_np (w_c1 w) = false).
Lemma shut_F : forall w w', shut w w' -> F w'.
Proof. intros w w' (A1 & _ & A3). split; [exact A1|]. split; [intros b; apply cleared_rest, A3|]. left. apply (A3 false). Qed.
Lemma F_closable : forall w, F w -> closable w. Proof. intros w (A1 & A2 & _). split; [exact A1|]. intros b. apply rest_safe, A2. Qed.
Lemma F_like : forall w w', like w w' -> F w -> F w'.
Proof. intros w w' L (A1 & A2 & A3). split; [eapply B_like; eauto|]. split; [intros b; rewrite (like_conn _ _ _ L); destruct L as (_ & _ & _ & ->); auto|]. destruct L as (-> & -> & _). exact A3. Qed.

Lemma wait_range_names : forall n p v s k sid t aval w, A p v s k sid t w -> wp (wait_range n p aval) (fun c w' => match c with CNext => F w' | CBreak _ | CGo _ => A p v s k sid t w' end) Hh w.
Proof.
  induction n as [|n IH]; intros p v s k sid t aval w AW; cbn [Pow_Model.wait_range]; pose proof (A_B _ _ _ _ _ _ _ AW) as V; [now apply wp_stop, B_H|].
  apply wp_bind, wp_getc. destruct (c_stop (conn_of p w)); cbn [negb]; [|now apply wp_ret]. destruct (c_cntrl (conn_of p w)); cbn [negb]; [|now apply wp_stop, B_H].
  asks. intros a w1 L1. pose proof (A_like _ _ _ _ _ _ _ _ L1 AW) as A1. rewrite <- (like_conn _ _ p L1). clear L1 AW V w. rename w1 into w, A1 into AW. pose proof (A_B _ _ _ _ _ _ _ AW) as V.
  assert (AE: A p v s k sid t (wemit (EOver (c_id (conn_of p w))) w)) by (apply A_emit; [exact AW|exact Logic.I|eapply A_id; eauto|reflexivity]).
  destruct (a_num a <? 0).
  - apply wp_bind, wp_emit. apply wp_bind, wp_modc.
    assert (AM: A p v s k sid t (wmod p (set_cntrl false) (wemit (EOver (c_id (conn_of p w))) w))) by (apply A_mod; [exact AE|reflexivity|apply AE]).
    apply wp_bind, wp_ask; [apply B_H, AM|]. intros a2 w2 L2. apply wp_ret. eapply A_like; eauto.
  - destruct (a_num a =? 0).
    + apply wp_bind, wp_emit. apply wp_bind, wp_modc.
      assert (AM: A p v s k sid t (wmod p (set_stop false) (wemit (EOver (c_id (conn_of p w))) w))) by (apply A_mod; [exact AE|reflexivity|apply AE]).
      apply wp_bind, wp_ask; [apply B_H, AM|]. intros a2 w2 L2. apply wp_ret. pose proof (A_like _ _ _ _ _ _ _ _ L2 AM). now destruct (negb (a_num a2 =? 0)).
    + destruct (a_num a =? 2); [|now apply wp_ret]. apply wp_bind. eapply wp_mono; [apply check_names; eapply A_closable; eauto|]. cbv beta. intros r w2 X. destruct r; [apply wp_ret; eapply shut_F; eauto|].
      pose proof (A_like _ _ _ _ _ _ _ _ X AW) as A2. apply wp_bind, wp_ask; [apply B_H, A2|]. intros a2 w3 L3. pose proof (A_like _ _ _ _ _ _ _ _ L3 A2) as A3. destruct (a_ok a2); [now apply IH|now apply wp_ret].
Qed.
Lemma wait_again_names : forall n p v s k sid t w, A p v s k sid t w -> wp (wait_again n p) (fun c w' => match c with CNext => F w' | CBreak _ | CGo _ => A p v s k sid t w' end) Hh w.
Proof.
  induction n as [|n IH]; intros p v s k sid t w AW; cbn [Pow_Model.wait_again]; pose proof (A_B _ _ _ _ _ _ _ AW) as V; [now apply wp_stop, B_H|].
  apply wp_bind, wp_getc. destruct (c_cntrl (conn_of p w)); cbn [negb]; [|now apply wp_stop, B_H].
  asks. intros a w1 L1. pose proof (A_like _ _ _ _ _ _ _ _ L1 AW) as A1. rewrite <- (like_conn _ _ p L1). clear L1 AW V w. rename w1 into w, A1 into AW. pose proof (A_B _ _ _ _ _ _ _ AW) as V.
  assert (AE: A p v s k sid t (wemit (EOver (c_id (conn_of p w))) w)) by (apply A_emit; [exact AW|exact Logic.I|eapply A_id; eauto|reflexivity]).
  assert (AM: A p v s k sid t (wmod p (set_stop false) (wemit (EOver (c_id (conn_of p w))) w))) by (apply A_mod; [exact AE|reflexivity|apply AE]).
  destruct (a_num a <? 0).
  - apply wp_bind, wp_emit. apply wp_bind, wp_modc. apply wp_bind. eapply wp_mono; [apply close_names; eapply A_closable; eauto|]. cbv beta. intros u w2 X. apply wp_ret. eapply shut_F; eauto.
  - destruct (a_num a =? 2).
    + apply wp_bind. eapply wp_mono; [apply check_names; eapply A_closable; eauto|]. cbv beta. intros r w2 X. destruct r; [apply wp_ret; eapply shut_F; eauto|]. apply IH. eapply A_like; eauto.
    + apply wp_bind, wp_emit. apply wp_bind, wp_modc. apply wp_bind, wp_ask; [apply B_H, AM|]. intros a2 w2 L2. apply wp_ret. eapply A_like; eauto.
Qed.
Lemma create_names : forall n p v s k sid t w, A p v s k sid t w -> wp (create n) (fun o w' => match o with None => F w' | Some _ => like w w' end) Hh w.
Proof.
  induction n as [|n IH]; intros p v s k sid t w AW; cbn [Pow_Model.create]; pose proof (A_B _ _ _ _ _ _ _ AW) as V; [now apply wp_stop, B_H|].
  asks. intros a w1 L1. destruct (a_num a =? 0); [now apply wp_ret|]. pose proof (A_like _ _ _ _ _ _ _ _ L1 AW) as A1. destruct (a_num a =? 1).
  - apply wp_bind. eapply wp_mono; [apply check_names; eapply A_closable; eauto|]. cbv beta. intros r w2 X. destruct r; [apply wp_ret; eapply shut_F; eauto|].
    eapply wp_mono; [eapply IH; eapply A_like; eauto|]. intros [o|] w3 Y; [|exact Y]. eapply like_trans; [exact L1|]. eapply like_trans; eauto.
  - destruct (a_num a =? 2); [now apply wp_ret|now apply wp_stop, B_H, A_B with (1 := A1)].
Qed.
Lemma act_more : forall p v s k sid t w from upto (ok : bool), A p v s k sid t w -> (s < K)%nat -> from = stamp sid t (N * s) -> upto = stamp sid t (N * S s) ->
  A p v (S s) k sid t (wemit (if ok then ESum (c_id (conn_of p w)) (Z.of_nat (N * s)) (Z.of_nat (N * S s)) from upto else EMissed (c_id (conn_of p w))) w).
Proof.
  intros p v s k sid t w from upto ok AW LK EF EU. pose proof (A_id _ _ _ _ _ _ _ AW) as IL. pose proof AW as (V & (A1 & (n & A2) & A3 & A4 & A5 & A6 & A7 & A8) & RS).
  set (e := if ok then _ else _). assert (AB: about e = c_id (conn_of p w)) by (unfold e; now destruct ok).
  assert (FI: fits (w_log w) e). { unfold e. destruct ok; [|exact Logic.I]. split; [|exact A6]. exists sid, t, n, s. auto 10. }
  split; [apply B_emit; [exact V|exact FI|now rewrite AB]|]. rewrite !conn_emit. change (w_log (wemit e w)) with (w_log w ++ [e]).
  assert (MI: forall x, In x (w_log w) -> In x (w_log w ++ [e])) by (intros; apply in_app_iff; now left).
  assert (IM: forall x, isend (w_log w) x -> isend (w_log w ++ [e]) x). { intros x (i & sd & y & m & X & Y). exists i, sd, y, m. auto. }
  split.
  - split; [exact A1|]. split; [exists n; auto|]. do 3 (split; [assumption|]). split.
    { intros f l a b X. apply in_snoc in X. destruct X as [X|X]; [specialize (A6 _ _ _ _ X); nia|]. unfold e in X. destruct ok; [|discriminate]. injection X as -> _ _ _. nia. }
    split; [|auto]. intros j J. destruct (Nat.eq_dec j s) as [->|NE].
    + unfold e. destruct ok; [left; exists from, upto; apply in_snoc; now right|right; apply in_snoc; now right].
    + destruct (A7 j ltac:(lia)) as [(a & b & X)|X]; [left; exists a, b|right]; apply MI; exact X.
  - destruct RS as (R1 & R2 & R3). split; [exact R1|]. split; [|auto]. intros NP. destruct (R2 NP) as ((m & B1) & B2 & B3 & B4). split; [exists m; auto|]. split; [exact B2|]. split; [exact B3|].
    intros f l a b X. apply in_snoc in X. destruct X as [X|X]; [now apply (B4 f l a b)|]. rewrite <- X in AB. cbn [about] in AB.
    destruct V as (G & _ & _ & _ & DI). apply (DI (negb p)); [eapply g_start; eauto|rewrite negb_involutive; exact AB].
Qed.
Lemma summary_names : forall p v s k sid t from upto aval w, A p v s k sid t w -> (s < K)%nat -> from = stamp sid t (N * s) -> upto = stamp sid t (N * S s) ->
  wp (summary p s from upto aval) (fun c w' => match c with CNext => F w' | CBreak _ => exists s', A p v s' k sid t w' | CGo _ => A p v (S s) k sid t w' end) Hh w.
Proof.
  intros p v s k sid t from upto aval w AW LK EF EU. unfold Pow_Model.summary. apply wp_bind, wp_modc.
  assert (A1: A p v s k sid t (wmod p (set_started true) w)) by (apply A_mod; [exact AW|reflexivity|apply AW]). clear AW. generalize dependent (wmod p (set_started true) w). clear w. intros w AW.
  apply wp_bind, wp_getc. cbv iota. apply wp_bind, wp_ret. apply wp_bind, wp_getc. pose proof (A_B _ _ _ _ _ _ _ AW) as V. destruct (c_fp (conn_of p w)); cbn [negb]; [|now apply wp_stop, B_H].
  asks. intros a w1 L1. pose proof (A_like _ _ _ _ _ _ _ _ L1 AW) as A1. destruct (a_ok a); cbn [negb]; [|apply wp_ret; eauto]. destruct (negb (c_stop (conn_of p w)) && (a_num a =? 0)); [apply wp_ret; eauto|].
  apply wp_bind, wp_remaining. intros n. apply wp_bind. eapply wp_mono; [eapply create_names; exact A1|]. cbv beta. intros [made|] w2 X; [|now apply wp_ret].
  pose proof (A_like _ _ _ _ _ _ _ _ X A1) as A2. assert (L2: like w w2) by (eapply like_trans; eauto). apply wp_bind.
  apply wp_mono with (Q := fun _ w' => A p v s k sid t w' /\ conn_of p w' = conn_of p w).
  { destruct made; [|apply wp_ret; split; [exact A2|now apply like_conn]]. apply wp_ask; [apply B_H, A2|]. intros a2 w3 L3. split; [eapply A_like; eauto|]. rewrite (like_conn _ _ _ L3). now apply like_conn. }
  intros a2 w3 (A3 & E3). apply wp_bind, wp_emit. rewrite <- E3. pose proof (act_more _ _ _ _ _ _ _ from upto (a_ok a2) A3 LK EF EU) as A4. apply wp_bind, wp_getc, wp_ret.
  destruct (c_cntrl _); eauto.
Qed.

Lemma setup_A : forall p v s k sid t limit w, A p v s k sid t w -> (v = false -> c_np (conn_of (negb p) w) = false) ->
  wp (setup_session (negb p) p limit) (fun r w' => if r then F w' \/ bad w' else A p true s k sid t w') Hh w.
Proof.
  intros p v s k sid t limit w AW NV. pose proof AW as (V & AC & RS). pose proof (setup_names (negb p) limit w V RS) as X. rewrite negb_involutive in X.
  eapply wp_mono; [apply X; eapply act_safe; eauto|]. cbv beta. intros r w' [(-> & -> & NP)|Y].
  - split; [exact V|]. split; [|exact RS]. destruct v; [exact AC|]. rewrite NV in NP by reflexivity. discriminate.
  - unfold SetupQ in Y. destruct r; [destruct Y as [Y|Y]; [left; eapply shut_F; eauto|now right]|]. destruct Y as (V' & G & R' & v' & n & E & IE). rewrite negb_involutive in E. split; [exact V'|]. split; [|exact R'].
    rewrite E. destruct (act_gr _ _ _ _ _ _ _ _ G AC) as (A1 & A2 & A3 & A4 & A5 & A6 & A7 & A8). unfold act. cbn. do 7 (split; [assumption|]). intros _ PT. auto.
Qed.
Lemma A_range : forall p v s k sid t w, A p v s k sid t w -> 0 <= t < 2 ^ 64.
Proof. intros p v s k sid t w ((G & _) & (_ & (n & A2) & _) & _). eapply g_start; eauto. Qed.

Lemma summaries_names : forall more p v s sid t aval w, A p v s (N * s) sid t w -> (v = false -> c_np (conn_of (negb p) w) = false) -> (v = true \/ more <> 0%nat) -> (s + more = K)%nat ->
  wp (summaries more p (negb p) s (acc sid 0 (N * s) 0) aval)
    (fun r w' => match r with None => F w' \/ bad w' | Some (_, complete) => exists s' k', A p true s' k' sid t w' /\ (complete = true -> s' = K) end) Hh w.
Proof.
  induction more as [|more IH]; intros p v s sid t aval w AW NV VM SK; cbn [Pow_Model.summaries].
  - apply wp_ret. exists s, (N * s)%nat. destruct VM as [->|VM]; [|now destruct VM]. split; [exact AW|lia].
  - apply wp_bind. eapply wp_mono; [apply check_names; eapply A_closable; eauto|]. cbv beta. intros r w1 X. destruct r; [apply wp_ret; left; eapply shut_F; eauto|].
    pose proof (A_like _ _ _ _ _ _ _ _ X AW) as A1. rewrite <- (like_conn _ _ (negb p) X) in NV. clear X AW w. rename w1 into w, A1 into AW. pose proof AW as (V & AC & RS).
    apply wp_bind, wp_getc. assert (CU: c_cur (conn_of p w) = t) by apply AC. assert (SC: c_sctx (conn_of p w) = Some (sid, (N * s)%nat)) by apply AC. pose proof (A_range _ _ _ _ _ _ _ AW) as TR.
    rewrite CU. apply wp_bind. eapply wp_mono; [apply (deltas_ok N p _ w sid (N * s) V SC)|]. cbv beta. intros last w2 (EL & V2 & E2 & O2 & G2).
    change (N * s)%nat with (0 + N * s)%nat in EL at 1. rewrite acc_app in EL. replace (N * s + N)%nat with (N * S s)%nat in EL, E2 by lia.
    assert (A2: A p v s (N * S s) sid t w2). { split; [exact V2|]. rewrite E2, O2, G2. split; [|exact RS]. destruct AC as (A1 & A2 & A3 & A4 & A5 & A6 & A7 & A8). unfold act. cbn. auto 10. }
    rewrite <- O2 in NV. apply wp_bind. eapply wp_mono; [eapply setup_A; [exact A2|exact NV]|]. cbv beta. intros r w3 X. destruct r; [apply wp_ret; exact X|]. rename X into A3.
    apply wp_bind, wp_remaining. intros n. apply wp_bind. eapply wp_mono; [apply wait_range_names; exact A3|]. cbv beta. intros [|av|av] w4 X.
    + apply wp_ret. now left.
    + apply wp_ret. exists s, (N * S s)%nat. split; [exact X|discriminate].
    + apply wp_bind. eapply wp_mono; [eapply summary_names; [exact X|lia|now rewrite add_acc|rewrite EL; now rewrite add_acc]|]. cbv beta. intros [|av'|av'] w5 Y.
      * apply wp_ret. now left.
      * apply wp_ret. destruct Y as (s' & Y). exists s', (N * S s)%nat. split; [exact Y|discriminate].
      * rewrite EL. eapply IH; [exact Y|discriminate|now left|lia].
Qed.

Lemma finish_names : forall p s k sid t aval complete w, A p true s k sid t w -> (complete = true -> s = K) -> wp (finish p (negb p) aval complete) (fun _ w' => F w') Hh w.
Proof.
  intros p s k sid t aval complete w AW CS. unfold Pow_Model.finish. apply wp_bind, wp_getc. apply wp_bind. set (i := c_id (conn_of p w)).
  apply wp_mono with (Q := fun _ w' => A p true s k sid t w' /\ c_id (conn_of p w') = i /\ (complete = false -> In (EBroken i) (w_log w'))).
  { apply wp_when; intros C; [|split; [exact AW|split; [reflexivity|destruct complete; discriminate]]]. apply wp_emit. split; [apply A_emit; [exact AW|exact Logic.I|eapply A_id; eauto|reflexivity]|].
    rewrite conn_emit. split; [reflexivity|]. intros _. apply in_snoc. now right. }
  intros _ w1 (A1 & I1 & B1). apply wp_bind.
  apply wp_mono with (Q := fun _ w' => A p true s k sid t w' /\ c_id (conn_of p w') = i /\ (complete = false -> In (EBroken i) (w_log w'))).
  { destruct (c_cntrl (conn_of p w) && c_stop (conn_of p w)); [|now apply wp_ret]. apply wp_bind, wp_emit.
    assert (A2: A p true s k sid t (wemit (EOver i) w1)) by (apply A_emit; [exact A1|exact Logic.I|cbn [about]; rewrite <- I1; eapply A_id; eauto|reflexivity]).
    apply wp_bind, wp_ask; [apply B_H, A2|]. intros a w2 L2. pose proof (A_like _ _ _ _ _ _ _ _ L2 A2) as A3. assert (I3: c_id (conn_of p w2) = i) by (rewrite (like_conn _ _ _ L2), conn_emit; exact I1).
    assert (B3: complete = false -> In (EBroken i) (w_log w2)). { intros C. destruct L2 as (_ & _ & _ & ->). apply in_snoc. left. auto. }
    apply wp_bind. apply wp_when; intros _; [apply wp_modc|]; apply wp_ret; [|auto]. split; [apply A_mod; [exact A3|reflexivity|apply A3]|]. rewrite conn_mod. auto. }
  intros av w2 (A2 & I2 & B2). apply wp_bind. eapply wp_mono; [apply write_names; [apply A2|]|].
  { intros FP ST. destruct A2 as (V2 & (X1 & (n & X2) & X3 & X4 & X5 & X6 & X7 & X8) & _). exists sid, t, n. split; [exact X2|]. split; [exact X3|]. split; [exact X4|]. rewrite I2 in *.
    destruct complete; [|left; auto]. rewrite CS in X7 by reflexivity. destruct (in_dec Nat.eq_dec i (map about (filter (fun e => match e with EMissed _ => true | _ => false end) (w_log w2)))) as [Y|Y].
    - right. left. apply in_map_iff in Y. destruct Y as (e & Y1 & Y2). apply filter_In in Y2. destruct Y2 as (Y2 & Y3). destruct e; try discriminate. cbn [about] in Y1. now subst.
    - right. right. intros j J. destruct (X7 j J) as [Z0|Z0]; [exact Z0|]. destruct Y. apply in_map_iff. exists (EMissed i). split; [reflexivity|]. apply filter_In. auto. }
  cbv beta. intros _ w3 (V3 & G3 & (sc & E3) & O3). apply wp_bind, wp_modc. set (f := fun c => set_np false _). set (w4 := wmod p f w3).
  assert (V4: B w4) by (apply B_mod; [exact V3|reflexivity]). destruct A2 as (_ & AC & RS).
  assert (RP: rest (conn_of p w4) (w_log w4)).
  { unfold w4. rewrite conn_mod, E3. change (w_log (wmod p f w3)) with (w_log w3). split; [discriminate|]. split; [discriminate|]. cbn. intros _ PT. eapply isend_gr; [exact G3|]. now apply AC. }
  assert (RQ: rest (conn_of (negb p) w4) (w_log w4)). { unfold w4. rewrite conn_mod_other, O3. eapply rest_gr; [exact G3|exact RS]. }
  assert (NP: c_np (conn_of p w4) = false) by (unfold w4; now rewrite conn_mod).
  apply wp_when; intros C.
  - pose proof (reset_names check (negb p) w4 V4 (rest_safe _ _ RQ)) as X. rewrite negb_involutive in X. eapply wp_mono; [exact X|]. cbv beta. intros _ w5 (V5 & G5 & C5 & O5). split; [exact V5|]. split.
    + intros b. destruct (bool_dec b p) as [->|NE]; [|rewrite (the_other _ _ NE); now apply cleared_rest]. rewrite O5. destruct RP as (R1 & R2 & R3). split; [exact R1|]. split; [cbn; congruence|cbn; discriminate].
    + pose proof (f_equal c_np O5) as Y. cbn in Y. rewrite NP in Y. destruct p; cbn in Y; auto.
  - split; [exact V4|]. split; [|clear -NP; clearbody w4; destruct p; cbn in NP; auto]. intros b. destruct (bool_dec b p) as [->|NE]; [exact RP|]. now rewrite (the_other _ _ NE).
Qed.

Lemma wp_nat : forall n T (m1 m2 : M T) Q Hx w, (n = 0%nat -> wp m1 Q Hx w) -> (n <> 0%nat -> wp m2 Q Hx w) -> wp (match n with O => m1 | S _ => m2 end) Q Hx w.
Proof. intros [|n]; auto. Qed.
Lemma pass_names : forall w, F w -> wp pass (fun _ w' => F w' \/ bad w') Hh w.
Proof.
  intros w FW. unfold Pow_Model.pass. apply wp_bind. eapply wp_mono; [apply check_names, F_closable, FW|]. cbv beta. intros r w1 X.
  assert (F1: F w1) by (destruct r; [eapply shut_F; eauto|eapply F_like; eauto]). clear X FW w. apply wp_bind, wp_take_turn. intros p w2 L2. pose proof (F_like _ _ L2 F1) as F2. clear F1 L2 w1. rename w2 into w, F2 into FW.
  cbv zeta. apply wp_bind, wp_getc. pose proof FW as (V & RS & NB). destruct (c_np (conn_of p w)) eqn:NP; cbn [negb].
  - assert (NQ: c_np (conn_of (negb p) w) = false) by (destruct p; cbn in *; destruct NB; congruence).
    apply wp_bind, wp_modc. set (f := fun c => set_cur _ _). destruct (RS p) as (R1 & R2 & R3). destruct (R2 NP) as ((n & D1) & D2 & D3 & D4).
    assert (AW: A p false 0 0 (c_sid (conn_of p w)) (c_next (conn_of p w)) (wmod p f w)).
    { split; [apply B_mod; [exact V|reflexivity]|]. rewrite conn_mod, conn_mod_other. split; [|apply RS]. unfold act. cbn. split; [exact NP|]. split; [exists n; exact D1|]. split; [reflexivity|]. split; [exact D2|]. split; [exact D3|].
      split; [intros g l a b X; now destruct (D4 g l a b)|]. split; [lia|discriminate]. }
    assert (NV: c_np (conn_of (negb p) (wmod p f w)) = false) by now rewrite conn_mod_other.
    set (sid := c_sid _) in AW. set (t := c_next _) in AW. clearbody sid t. generalize dependent (wmod p f w). clear -SOME. intros w AW NV.
    apply wp_bind. apply wp_mono with (Q := fun (r : option (Z * bool)) w' => match r with None => F w' \/ bad w' | Some (_, complete) => exists s' k', A p true s' k' sid t w' /\ (complete = true -> s' = K) end).
    { pose proof (summaries_names K p false 0 sid t 0 w) as SU. rewrite Nat.mul_0_r in SU. cbn [Pow_Proofs.acc] in SU. specialize (SU AW (fun _ => NV)).
      pose proof (setup_A p false 0 0 sid t None w AW (fun _ => NV)) as SE. apply wp_nat; intros EK.
      - apply wp_bind. eapply wp_mono; [exact SE|]. cbv beta. intros r w1 X. destruct r; [now apply wp_ret|]. apply wp_bind, wp_modc.
        assert (A1: A p true 0 0 sid t (wmod p (set_started true) w1)) by (apply A_mod; [exact X|reflexivity|apply X]).
        apply wp_bind, wp_remaining. intros n. apply wp_bind. eapply wp_mono; [apply wait_again_names; exact A1|]. cbv beta. intros [|av|av] w2 Y; apply wp_ret; [now left| |]; exists 0%nat, 0%nat; auto.
      - apply SU; [right; exact EK|reflexivity]. }
    intros [(av & complete)|] w1 X; [|now apply wp_ret]. destruct X as (s' & k' & A1 & CS). eapply wp_mono; [eapply finish_names; eauto|]. auto.
  - apply wp_bind. pose proof (setup_names (negb p) None w V (RS (negb p))) as X. rewrite negb_involutive in X. eapply wp_mono; [apply X, rest_safe, RS|]. cbv beta. clear r. intros r w' Y. apply wp_ret.
    destruct Y as [(-> & -> & _)|Y]; [now left|]. unfold SetupQ in Y. destruct r; [destruct Y as [Y|Y]; [left; eapply shut_F; eauto|now right]|]. left.
    destruct Y as (V' & G & R' & v & n & E & IE). rewrite negb_involutive in E. split; [exact V'|]. split.
    + intros b. destruct (bool_dec b p) as [->|NE]; [|now rewrite (the_other _ _ NE)]. rewrite E. destruct (RS p) as (R1 & R2 & R3). split; [exact R1|]. split; [cbn; congruence|]. cbn. intros _ PT. auto.
    + pose proof (f_equal c_np E) as Y. cbn in Y. rewrite NP in Y. clear -Y. destruct p; cbn in Y; auto.
Qed.

(** ** A failure stays in the log *)
Definition grows {T} (m : M T) : Prop := forall w, bad w -> bad (snd (m w)).
Lemma grows_bind : forall T T' (m : M T) (f : T -> M T'), grows m -> (forall a, grows (f a)) -> grows (bind m f).
Proof. intros T T' m f X Y w BW. unfold bind. specialize (X w BW). destruct (m w) as [[a|h] w']; cbn [snd] in *; [now apply Y|exact X]. Qed.
Lemma grows_ask : grows ask. Proof. intros w BW. unfold ask. now destruct (w_env w). Qed.
Lemma grows_emit : forall e, grows (emit e). Proof. intros e w BW. apply in_snoc. now left. Qed.
Ltac growth tac := repeat (first [tac | apply grows_ask | apply grows_emit | (intros ? ?; assumption) | apply grows_bind; [|intros ?] | match goal with |- grows (match ?x with _ => _ end) => destruct x end]).
Lemma grows_deltas : forall n b t, grows (add_deltas n b t).
Proof. induction n as [|n IH]; intros b t; cbn [Pow_Model.add_deltas]; [intros w; auto|]. apply grows_bind; [unfold Pow_Model.next_delta; growth fail|intros d; apply IH]. Qed.
Lemma grows_write : forall m b aval newend, grows (write_session m b aval newend).
Proof. intros m b aval newend. unfold Pow_Model.write_session, rewind, when. growth ltac:(apply grows_deltas). Qed.
Lemma grows_reset : forall m p q, grows (reset_session m p q).
Proof. intros m p q. unfold Pow_Model.reset_session, close_cntrl, when. growth ltac:(apply grows_write). Qed.
Lemma grows_close : forall m, grows (close_sessions m). Proof. intros m. unfold Pow_Model.close_sessions. apply grows_bind; [|intros _]; apply grows_reset. Qed.
Lemma grows_sig : forall d, grows (sig_check d).
Proof. intros [|d]; cbn [Pow_Model.sig_check]; unfold when; growth ltac:(apply grows_close). Qed.
Lemma grows_check : grows check. Proof. apply grows_sig. Qed.
Lemma grows_sleep : forall n, grows (sleep n).
Proof. induction n as [|n IH]; cbn [Pow_Model.sleep]; growth ltac:(first [apply grows_check|apply IH]). Qed.
Lemma grows_cntrl_clean : forall p, grows (cntrl_clean p). Proof. intros p. unfold cntrl_clean, sctx_clean, fetch_clean, close_cntrl, when. growth fail. Qed.
Lemma grows_rest : forall p q, grows (setup_rest p q).
Proof. intros p q. unfold Pow_Model.setup_rest, file_clean, sctx_clean, fetch_clean, rewind, when. cbv zeta. growth ltac:(first [apply grows_check|apply grows_deltas|apply grows_cntrl_clean]). Qed.
Lemma grows_setup : forall p q limit, grows (setup_session p q limit).
Proof. intros p q limit. unfold Pow_Model.setup_session, close_cntrl, when. growth ltac:(first [apply grows_check|apply grows_sleep|apply grows_rest]). Qed.
Lemma grows_again : forall n p, grows (wait_again n p).
Proof. induction n as [|n IH]; intros p; cbn [Pow_Model.wait_again]; growth ltac:(first [apply grows_check|apply grows_close|apply IH]). Qed.
Lemma grows_range : forall n p aval, grows (wait_range n p aval).
Proof. induction n as [|n IH]; intros p aval; cbn [Pow_Model.wait_range]; growth ltac:(first [apply grows_check|apply IH]). Qed.
Lemma grows_create : forall n, grows (create n).
Proof. induction n as [|n IH]; cbn [Pow_Model.create]; growth ltac:(first [apply grows_check|apply IH]). Qed.
Lemma grows_summary : forall p s from upto aval, grows (summary p s from upto aval).
Proof. intros p s from upto aval. unfold Pow_Model.summary. cbv iota. growth ltac:(apply grows_create). Qed.
Lemma grows_summaries : forall more p q s last aval, grows (summaries more p q s last aval).
Proof.
  induction more as [|more IH]; intros p q s last aval; cbn [Pow_Model.summaries]; cbv zeta;
    growth ltac:(first [apply grows_check|apply grows_deltas|apply grows_setup|apply grows_range|apply grows_summary|apply IH]).
Qed.
Lemma grows_finish : forall p q aval complete, grows (finish p q aval complete).
Proof. intros p q aval complete. unfold Pow_Model.finish, when. growth ltac:(first [apply grows_write|apply grows_reset]). Qed.
Lemma grows_nat : forall n T (m1 m2 : M T), grows m1 -> grows m2 -> grows (match n with O => m1 | S _ => m2 end).
Proof. intros [|n]; auto. Qed.
Lemma grows_pass : grows pass.
Proof.
  unfold Pow_Model.pass. apply grows_bind; [apply grows_check|intros _]. apply grows_bind; [intros ? ?; assumption|intros p]. cbv zeta. apply grows_bind; [intros ? ?; assumption|intros c].
  destruct (negb (c_np c)); [apply grows_bind; [apply grows_setup|intros _ ? ?; assumption]|]. apply grows_bind; [intros ? ?; assumption|intros _].
  apply grows_bind; [|intros [[av cm]|]; [apply grows_finish|intros ? ?; assumption]]. apply grows_nat; [|apply grows_summaries].
  apply grows_bind; [apply grows_setup|intros [|]; [intros ? ?; assumption|]]. apply grows_bind; [intros ? ?; assumption|intros _]. apply grows_bind; [intros ? ?; assumption|intros n].
  apply grows_bind; [apply grows_again|]. intros [|av|av] ? ?; assumption.
Qed.
Lemma grows_passes : forall n, grows (passes n).
Proof. induction n as [|n IH]; cbn [Pow_Model.passes]; [intros w; auto|]. apply grows_bind; [apply grows_pass|intros _; exact IH]. Qed.

Lemma passes_names : forall n w, F w \/ bad w -> Good (w_log (snd (passes n w))) \/ bad (snd (passes n w)).
Proof.
  induction n as [|n IH]; intros w X.
  - cbn. destruct X as [((X & _) & _)|X]; auto.
  - destruct X as [X|X]; [|right; now apply grows_passes]. pose proof (pass_names w X) as Y. unfold wp in Y. cbn [Pow_Model.passes]. unfold bind. destruct (pass w) as [[a|h] w']; [now apply IH|left; exact Y].
Qed.
Lemma world0_F : forall env, F (world0 env).
Proof.
  intros env. split; [|split; [|now left]].
  - split.
    + split; cbn; try tauto; intros; match goal with X : [] = _ ++ _ |- _ => now apply app_cons_not_nil in X end.
    + split; [cbn; lia|]. split; [now intros e []|]. split; intros [|]; cbn; lia.
  - intros [|]; apply cleared_rest; unfold cleared; cbn; auto 10.
Qed.
Theorem names_ok : forall n env, let log := w_log (snd (passes n (world0 env))) in ~ In EFailed log -> Good log.
Proof. intros n env log NF. destruct (passes_names n (world0 env)) as [X|X]; [left; apply world0_F|exact X|now destruct NF]. Qed.
End Names.
