(** Property theorems about the machine readable summary and what is behind it: C156 (it adds up), C157 (delays of percentiles), C158 (hops), C159 (size of datagrams),
    C160 (code point and times).  Vocabulary: Stats_Spec.v. *)
From Coq Require Import ZArith List Bool QArith Lqa Lia ZifyBool ZifyNat Sorted Permutation.
From Verif Require Import Base BaseLemmas Double Double_Proofs Time_Model Wire_Model Receiver_Spec Stats_Model Stats_Spec Stats_Proofs Stats_Iter Stats_Parse Stats_Report Props_Receiver Props_Stats
  Options_Model Options_Spec Props_Options Clean_Search Report_Model Report_Proofs Machine_Model.
Import ListNotations.
Open Scope Z_scope.

Definition total (l : list (Z * Z)) : Z := fold_right Z.add 0 (map snd l).
(** what a section adds up to, nothing if it is not printed *)
Definition printed_total (s : option (list (Z * Z))) : Z := match s with Some l => total l | None => 0 end.

(** ** C156: the machine readable summary adds up *)

Lemma copies_length : forall l before, Z.of_nat (length (first_copies before l)) = Z.of_nat (length (nodup Z.eq_dec (filter (fun q => if in_dec Z.eq_dec q before then false else true) (map r_seq l)))).
Proof.
  induction l as [|r l IH]; intros before; [reflexivity|]. cbn [first_copies map filter]. destruct (in_dec Z.eq_dec (r_seq r) before) as [I|I]; [apply IH|].
  cbn [length]. rewrite Nat2Z.inj_succ, IH. cbn [nodup].
  set (F := filter (fun q => if in_dec Z.eq_dec q before then false else true) (map r_seq l)).
  set (G := filter (fun q => if in_dec Z.eq_dec q (r_seq r :: before) then false else true) (map r_seq l)).
  assert (E : forall q, In q G <-> In q F /\ q <> r_seq r).
  { intros q. unfold F, G. rewrite !filter_In. destruct (in_dec Z.eq_dec q (r_seq r :: before)) as [A|A], (in_dec Z.eq_dec q before) as [B|B]; cbn [In] in A; intuition congruence. }
  clearbody F G. assert (N : forall X Y : list Z, (forall q, In q X <-> In q Y) -> length (nodup Z.eq_dec X) = length (nodup Z.eq_dec Y)).
  { intros X Y H. apply Nat.le_antisymm; apply NoDup_incl_length; try apply NoDup_nodup; intros q; rewrite !nodup_In; apply H. }
  assert (K : length (nodup Z.eq_dec (r_seq r :: G)) = S (length (nodup Z.eq_dec G))).
  { cbn [nodup]. destruct (in_dec Z.eq_dec (r_seq r) G) as [A|A]; [apply E in A; destruct A; congruence|reflexivity]. }
  rewrite <- Nat2Z.inj_succ, <- K. f_equal. destruct (in_dec Z.eq_dec (r_seq r) F) as [A|A].
  - apply N. intros q. cbn [In]. rewrite E. destruct (Z.eq_dec q (r_seq r)); intuition congruence.
  - change (S (length (nodup Z.eq_dec F))) with (length (r_seq r :: nodup Z.eq_dec F)). replace (r_seq r :: nodup Z.eq_dec F) with (nodup Z.eq_dec (r_seq r :: F)) by (cbn [nodup]; destruct (in_dec Z.eq_dec (r_seq r) F); tauto).
    apply N. intros q. cbn [In]. rewrite E. destruct (Z.eq_dec q (r_seq r)); intuition congruence.
Qed.
Lemma copies_distinct : forall l, Z.of_nat (length (first_copies [] l)) = distinct l.
Proof.
  intros l. rewrite copies_length. unfold distinct. f_equal. f_equal. f_equal. induction (map r_seq l) as [|x m IH]; [reflexivity|]. cbn [filter]. destruct (in_dec Z.eq_dec x []) as [[]|_]. now rewrite IH.
Qed.

Lemma below_total : forall h b, Forall (fun x => fst x <= b) h -> below b h = total h.
Proof.
  intros h b F. induction F as [|x h X F IH]; [reflexivity|]. unfold below, total in *. cbn [fold_right map]. rewrite IH. replace (fst x <=? b) with true by lia. reflexivity.
Qed.
Lemma total_perm : forall h h', Permutation h h' -> total h = total h'.
Proof. intros h h' P. induction P; unfold total in *; cbn [map fold_right] in *; lia. Qed.
Lemma bounded : forall h : list (Z * Z), exists b, Forall (fun x => fst x <= b) h.
Proof.
  induction h as [|x h (b & IH)]; [exists 0; constructor|]. exists (Z.max b (fst x)). constructor; [lia|]. eapply Forall_impl; [|exact IH]. cbn. intros. lia.
Qed.
Lemma hist_total : forall (bk : datarec -> Z) h R, hist_ok h -> (forall b, samples h b = count (fun r => bk r =? b) R) -> total h = Z.of_nat (length R).
Proof.
  intros bk h R HO HI. destruct (bounded h) as (b1 & B1). destruct (bounded (map (fun r => (bk r, 0)) R)) as (b2 & B2).
  set (b := Z.max b1 b2). rewrite <- (below_total h b) by (eapply Forall_impl; [|exact B1]; cbn; intros; unfold b; lia).
  rewrite (samples_count bk h HO R b HI). unfold count. f_equal. f_equal. rewrite Forall_map in B2. clear - B2. subst b. induction B2 as [|r R X B2 IH]; [reflexivity|]. cbn [filter fst] in *.
  replace (bk r <=? Z.max b1 b2) with true by lia. now rewrite IH.
Qed.

Lemma ttl_lines_In : forall counts i t n, In (t, n) (ttl_lines i counts) <-> i <= t < i + Z.of_nat (length counts) /\ n <> 0 /\ nth (Z.to_nat (t - i)) counts 0 = n.
Proof.
  induction counts as [|c counts IH]; intros i t n; cbn [ttl_lines length]; [cbn; lia|]. rewrite in_app_iff, IH. split.
  - intros [I|I].
    + destruct (Z.eqb_spec c 0); [destruct I|]. destruct I as [I|[]]. injection I as <- <-. rewrite Z.sub_diag. cbn. lia.
    + destruct I as (A & B & C). split; [lia|]. split; [exact B|]. replace (Z.to_nat (t - i)) with (S (Z.to_nat (t - (i + 1)))) by lia. exact C.
  - intros (A & B & C). destruct (Z.eq_dec t i) as [->|N].
    + left. rewrite Z.sub_diag in C. cbn in C. subst c. replace (n =? 0) with false by lia. now left.
    + right. split; [lia|]. split; [exact B|]. replace (Z.to_nat (t - i)) with (S (Z.to_nat (t - (i + 1)))) in C by lia. exact C.
Qed.
Lemma ttl_lines_nodup : forall counts i, NoDup (map fst (ttl_lines i counts)).
Proof.
  induction counts as [|c counts IH]; intros i; cbn [ttl_lines]; [constructor|]. destruct (c =? 0); cbn [app map fst]; [apply IH|]. constructor; [|apply IH].
  intros I. apply in_map_iff in I. destruct I as ([t n] & E & I). apply ttl_lines_In in I. cbn [fst] in E. lia.
Qed.
Lemma ttl_lines_total : forall counts i, total (ttl_lines i counts) = fold_right Z.add 0 counts.
Proof.
  induction counts as [|c counts IH]; intros i; [reflexivity|]. cbn [ttl_lines fold_right]. destruct (Z.eqb_spec c 0) as [->|N]; unfold total in *; cbn [app map snd fold_right]; rewrite IH; lia.
Qed.
Lemma ttl_loop_range : forall counts i num lo hi, 0 <= num < 256 -> 0 <= fst (fst (ttl_loop i counts num lo hi)) < 256.
Proof. induction counts as [|c counts IH]; intros i num lo hi N; cbn [ttl_loop]; [exact N|]. destruct (c =? 0); apply IH; unfold u8; lia. Qed.
Lemma samples_none : forall b l, ~ In b (map fst l) -> samples l b = 0.
Proof.
  intros b. induction l as [|[y m] l IHl]; intros NX; [reflexivity|]. cbn [samples fold_right fst snd]. fold (samples l b). cbn [map In fst] in NX.
  rewrite IHl by tauto. replace (y =? b) with false by (symmetry; apply Z.eqb_neq; tauto). reflexivity.
Qed.
Lemma samples_In : forall l b n, NoDup (map fst l) -> In (b, n) l -> samples l b = n.
Proof.
  induction l as [|[y m] l IH]; intros b n ND I; [destruct I|]. cbn [map fst] in ND. apply NoDup_cons_iff in ND. destruct ND as (NI & ND). cbn [samples fold_right fst snd]. fold (samples l b).
  destruct I as [I|I]; [injection I as -> ->; rewrite (samples_none _ _ NI), Z.eqb_refl; lia|]. destruct (Z.eqb_spec y b) as [->|NE]; [exfalso; apply NI; apply (in_map fst) in I; exact I|]. rewrite (IH b n ND I). lia.
Qed.
Lemma samples_ex : forall l b, samples l b <> 0 -> NoDup (map fst l) -> In (b, samples l b) l.
Proof.
  induction l as [|[y m] l IH]; intros b N ND; [now destruct N|]. pose proof ND as ND0. cbn [map fst] in ND. apply NoDup_cons_iff in ND. destruct ND as (NI & ND).
  cbn [samples fold_right fst snd] in *. fold (samples l b) in *. destruct (Z.eqb_spec y b) as [->|NE]; [left; rewrite (samples_none _ _ NI); f_equal; lia|]. right. rewrite Z.add_0_l in *. now apply IH.
Qed.

(** A histogram of [R]: each value that occurs is there once, with the number of its occurrences *)
Definition histogram (f : datarec -> Z) (R : list datarec) (l : list (Z * Z)) : Prop :=
  NoDup (map fst l) /\ (forall v n, In (v, n) l <-> 0 < n /\ n = count (fun r => f r =? v) R).

Lemma histogram_total : forall f R l, histogram f R l -> total l = Z.of_nat (length R).
Proof.
  intros f R l (ND & H). apply (hist_total f); [split; [exact ND|intros [v n] I; apply H in I; cbn; lia]|].
  intros b. destruct (Z.eq_dec (count (fun r => f r =? b) R) 0) as [E|E].
  - rewrite E. apply samples_none. intros I. apply in_map_iff in I. destruct I as ([v n] & <- & I). apply H in I. cbn [fst] in *. lia.
  - apply samples_In; [exact ND|]. apply H. unfold count in *. lia.
Qed.

(** For every summary of records as a receiver writes them: the packets of the section BUCKETS are those SENT and not LOST, and so are those of the section TTLBUCKETS; both are
    histograms of the first copies of the packets received.  The size of the sample is that of the range, and the session counts as finished if its file says so.
    Missing: the section TTLBUCKETS if all 256 values occur, refuted below *)
Theorem C156_adds_up_partial : forall start timeout npackets rec_size skips delta rlistlen bucket, session_ok start delta rlistlen -> npackets < 2^32 ->
  forall used g c recs g', obtained start timeout npackets rec_size skips delta rlistlen bucket used g -> call_ok npackets rec_size c -> looks_at rec_size c recs ->
  chronicle start timeout delta recs -> do_call start timeout npackets rec_size skips delta rlistlen bucket c g = POk g' ->
  forall typeP finished order, Permutation (g_hist g') order ->
  let R := first_copies [] (arrived (counting npackets skips c recs)) in
  let m := print_machine typeP npackets finished order g' in
  m_lost m <= m_sent m /\ m_sent m - m_lost m = Z.of_nat (length R) /\
  printed_total (m_buckets m) = m_sent m - m_lost m /\
  (forall l, m_buckets m = Some l -> histogram (fun r => bucket (r_send r) (r_recv r)) R l) /\
  ((length (nodup Z.eq_dec (map r_ttl R)) < 256)%nat -> printed_total (m_ttls m) = m_sent m - m_lost m) /\
  (forall l, m_ttls m = Some l -> histogram r_ttl R l) /\
  m_sample m = upto npackets c - c_first c /\ m_session m = npackets /\ (m_finished m = 1 <-> finished = 1) /\ (m_finished m = 0 <-> finished <> 1).
Proof.
  intros start timeout npackets rec_size skips delta rlistlen bucket SO NP used g c recs g' O OK L CH E typeP finished order PE R m.
  pose proof (C46_ttl_partial start timeout npackets rec_size skips delta rlistlen bucket SO used g c recs g' O OK L E) as TTL. cbv zeta in TTL. fold R in TTL.
  destruct (call_result start timeout npackets rec_size skips delta rlistlen bucket used g c recs SO (obtained_usable start timeout npackets rec_size skips delta rlistlen bucket SO _ _ O) OK L) as (P & _). rewrite E in P.
  destruct P as (_ & CO & (GF & GL) & SE & _ & LO & _ & HO & HI & TL & TT & _).
  change (relevant (c_first c) (upto npackets c) skips recs) with (counting npackets skips c recs) in *. unfold copies in *. fold R in HI, TT.
  pose proof (copies_distinct (arrived (counting npackets skips c recs))) as CD. fold R in CD.
  assert (LD: distinct (lost (counting npackets skips c recs)) = Z.of_nat (length (lost (counting npackets skips c recs)))).
  { apply distinct_nodup. apply lost_once. intros q. destruct CH as (CH & _). destruct (CH q) as (X & _).
    pose proof (filter_le _ (fun r => in_range (c_first c) (upto npackets c) r && negb (not_sent skips (r_seq r))) (fun x => (r_seq x =? q) && is_lost x) recs) as FL.
    unfold counting, relevant, lost_of in *. lia. }
  assert (TR : Forall (fun r => 0 <= r_ttl r < 256) recs) by (eapply looks_ttl; eassumption).
  assert (RR : Forall (fun r => 0 <= r_ttl r < 256) R).
  { rewrite Forall_forall in *. intros r I. apply TR. unfold R in I. revert I. generalize (@nil Z) as bf.
    assert (X: forall l bf, In r (first_copies bf l) -> In r l).
    { induction l as [|x l IH]; intros bf I; cbn [first_copies] in I; [exact I|]. destruct (in_dec _ _ _); [right; eauto|]. destruct I as [<- | I]; [now left|right; eauto]. }
    intros bf I. apply X in I. unfold arrived, counting, relevant in I. apply filter_In in I. destruct I as (I & _). apply filter_In in I. tauto. }
  assert (HB : histogram (fun r => bucket (r_send r) (r_recv r)) R order).
  { destruct HO as (ND & PO). split; [exact (Permutation_NoDup (Permutation_map fst PE) ND)|]. intros v n. split.
    - intros I. apply (Permutation_in _ (Permutation_sym PE)) in I. split; [exact (PO _ I)|]. rewrite <- HI. symmetry. apply samples_In; assumption.
    - intros (N & Q). apply (Permutation_in _ PE). rewrite <- HI in Q. subst n. apply samples_ex; [lia|exact ND]. }
  assert (HT : histogram r_ttl R (ttl_lines 0 (g_ttl g'))).
  { split; [apply ttl_lines_nodup|]. intros v n. rewrite ttl_lines_In, TL, Z.sub_0_r. split.
    - intros (A & B & C). rewrite TT in C by lia. split; [unfold count in *; lia|congruence].
    - intros (A & B). assert (V : 0 <= v < 256).
      { unfold count in B. destruct (filter (fun r => r_ttl r =? v) R) as [|r l] eqn:F; [cbn in B; lia|]. assert (I : In r (filter (fun r => r_ttl r =? v) R)) by (rewrite F; now left).
        apply filter_In in I. destruct I as (I & Q). rewrite Forall_forall in RR. specialize (RR r I). lia. }
      split; [lia|]. split; [lia|]. rewrite TT by lia. congruence. }
  pose proof (histogram_total _ _ _ HB) as SB. pose proof (histogram_total _ _ _ HT) as ST.
  pose proof (ttl_loop_range (g_ttl g') 0 0 255 0 ltac:(lia)) as NR. fold (ttl_stats (g_ttl g')) in NR.
  unfold print_machine in m. destruct (ttl_stats (g_ttl g')) as [[num lo] hi]. cbn [fst snd] in NR. unfold m. cbn [m_lost m_sent m_buckets m_ttls m_sample m_session m_finished].
  destruct OK as (_ & _ & _ & _ & F1 & F2 & _).
  split; [lia|]. split; [lia|]. split; [|split; [|split; [|split; [|split; [|split; [|split]]]]]].
  - destruct (Z.ltb_spec (p_lost (g_pk g')) (g_sent g')); cbn [printed_total]; lia.
  - intros l. destruct (_ <? _); intros Q; [injection Q as <-; exact HB|discriminate].
  - intros LT. destruct TTL as (_ & TTL). specialize (TTL LT). destruct (Z.ltb_spec 0 num) as [NP'|NP']; cbn [printed_total]; [lia|].
    assert (N0 : length (nodup Z.eq_dec (map r_ttl R)) = 0%nat) by lia. destruct R as [|r R']; [cbn in CD; lia|]. exfalso.
    assert (I : In (r_ttl r) (nodup Z.eq_dec (map r_ttl (r :: R')))) by (apply nodup_In; now left). destruct (nodup Z.eq_dec _); [destruct I|discriminate].
  - intros l. destruct (0 <? num); intros Q; [injection Q as <-; exact HT|discriminate].
  - rewrite GF, GL. unfold u32. apply Z.mod_small. lia.
  - reflexivity.
  - destruct (Z.eqb_spec finished 1); lia.
  - destruct (Z.eqb_spec finished 1); lia.
Qed.

(** With all the 256 values of the TTL there are 256 packets, and no section TTLBUCKETS *)
Theorem C156_ttl_refuted : exists g, t_result = POk g /\ forall order typeP, Permutation (g_hist g) order ->
  let m := print_machine typeP 256 1 order g in m_sent m - m_lost m = 256 /\ m_ttls m = None.
Proof.
  assert (X : match t_result with POk g => (g_sent g - p_lost (g_pk g) =? 256) && (fst (fst (ttl_stats (g_ttl g))) =? 0) | _ => false end = true) by (vm_compute; reflexivity).
  destruct t_result as [g|g|]; [|discriminate|discriminate]. exists g. split; [reflexivity|]. intros order typeP _. apply andb_true_iff in X. destruct X as (A & B).
  unfold print_machine. destruct (ttl_stats (g_ttl g)) as [[num lo] hi]. cbn [fst] in B. apply Z.eqb_eq in A, B. subst num. cbn [m_sent m_lost m_ttls]. split; [exact A|reflexivity].
Qed.

(** MINTTL and MAXTTL are the least and the greatest time to live of the packets that arrived *)
Theorem C156_extremes : forall start timeout npackets rec_size skips delta rlistlen bucket, session_ok start delta rlistlen ->
  forall used g c recs g', obtained start timeout npackets rec_size skips delta rlistlen bucket used g -> call_ok npackets rec_size c -> looks_at rec_size c recs ->
  do_call start timeout npackets rec_size skips delta rlistlen bucket c g = POk g' ->
  forall typeP finished order,
  let R := first_copies [] (arrived (counting npackets skips c recs)) in
  let m := print_machine typeP npackets finished order g' in
  R <> [] -> (exists r, In r R /\ r_ttl r = m_minttl m) /\ (exists r, In r R /\ r_ttl r = m_maxttl m) /\ forall r, In r R -> m_minttl m <= r_ttl r <= m_maxttl m.
Proof.
  intros start timeout npackets rec_size skips delta rlistlen bucket SO used g c recs g' O OK L E typeP finished order R m NE.
  pose proof (C46_ttl_partial start timeout npackets rec_size skips delta rlistlen bucket SO used g c recs g' O OK L E) as TTL. cbv zeta in TTL. fold R in TTL.
  unfold m, print_machine. destruct (ttl_stats (g_ttl g')) as [[num lo] hi]. cbn [m_minttl m_maxttl]. apply TTL. exact NE.
Qed.

Example C156_extremes_case : exists g, x_do x_recs 200 0 4 x_new = POk g /\ let m := print_machine 0 4 1 (g_hist g) g in m_minttl m = 59 /\ m_maxttl m = 61.
Proof. eexists. split; [vm_compute; reflexivity|]. vm_compute. auto. Qed.

(** the session of Props_Stats *)
Example C156_case : exists g, x_do x_recs 200 0 4 x_new = POk g /\ let m := print_machine (46 * 2^24) 4 1 (g_hist g) g in
  m_sent m = 4 /\ m_lost m = 1 /\ printed_total (m_buckets m) = 3 /\ m_ttls m = Some [(59, 1); (60, 1); (61, 1)] /\ m_dscp m = Some 46 /\ m_sample m = 4.
Proof. eexists. split; [vm_compute; reflexivity|]. vm_compute. auto 10. Qed.

(** ** C157: the delays reported for percentiles *)

Lemma ceil_bounds : forall x, ok x -> (qv x <= inject_Z (d_ceil x))%Q /\ (inject_Z (d_ceil x) <= qv x + 1)%Q.
Proof.
  intros (p, q) (A & B). cbn [fst snd] in *. unfold d_ceil, qv. cbn [fst snd]. pose proof (Z.mul_div_le (- p) q B) as M1. pose proof (Z.mul_succ_div_gt (- p) q B) as M2.
  set (k := - p / q) in *. split; unfold Qle, inject_Z, Qplus; cbn [Qnum Qden]; rewrite ?Z2Pos.id, ?Pos2Z.inj_mul by lia; nia.
Qed.
Lemma ceil_nonneg : forall x, ok x -> 0 <= d_ceil x.
Proof. intros (p, q) (A & B). cbn [fst snd] in *. unfold d_ceil. cbn [fst snd]. pose proof (Z.mul_div_le (- p) q B). nia. Qed.
Lemma ceil_pos : forall x, ok x -> 0 < fst x -> 0 < d_ceil x.
Proof. intros (p, q) (A & B). cbn [fst snd] in *. unfold d_ceil. cbn [fst snd]. pose proof (Z.mul_div_le (- p) q B). nia. Qed.

(** the fraction of a delay or of a percentile *)
Definition value (x : Z * Z) : Q := (fst x # Z.to_pos (snd x))%Q.
Definition seconds (x : Z) : Q := (x # (2^32)%positive)%Q.

Lemma bucket_near : forall w x b, ok w -> 0 < fst w -> bucket_of w x = Some b ->
  Z.sgn b = Z.sgn x /\ (seconds (Z.abs x) * (1 - uu) * (1 - uu) <= qv (d_mul (d_int (Z.abs b)) w) /\
    qv (d_mul (d_int (Z.abs b)) w) <= (seconds (Z.abs x) * (1 + uu) + qv w) * (1 + uu))%Q.
Proof.
  intros w x b W WP. unfold bucket_of. set (X := (Z.abs x, 2 ^ 32)). set (c := d_ceil (d_div X w)). destruct (_ && _) eqn:R; [|discriminate]. intros Q. injection Q as <-.
  apply andb_true_iff in R. destruct R as (R1 & R2). apply Z.leb_le in R1. apply Z.ltb_lt in R2.
  assert (OX : ok X) by (split; cbn; lia). pose proof (ok_div X w OX W WP) as OD.
  assert (CP : x <> 0 -> 0 < c). { intros NZ. apply ceil_pos; [exact OD|]. apply pos_div; auto. cbn. lia. }
  assert (C0 : 0 <= c) by (apply ceil_nonneg; exact OD).
  assert (CB : Z.abs (Z.sgn x * c) = c /\ Z.sgn (Z.sgn x * c) = Z.sgn x \/ x = 0 /\ c = 0).
  { destruct (Z.eq_dec x 0) as [->|NZ]; [right; split; [reflexivity|]; unfold c, X; cbn [Z.abs]; unfold d_div; cbn [fst snd]; rewrite Z.mul_0_l; reflexivity|]. left. specialize (CP NZ). split; [|rewrite Z.sgn_mul, (Z.sgn_pos c) by lia; destruct x; cbn; lia]. destruct x; cbn [Z.sgn]; lia. }
  assert (AB : Z.abs (Z.sgn x * c) = c /\ Z.sgn (Z.sgn x * c) = Z.sgn x) by (destruct CB as [CB|(-> & ->)]; [exact CB|split; reflexivity]).
  destruct AB as (AB & SG). split; [exact SG|]. rewrite AB.
  destruct (div_q X w OX W WP) as (D1 & D2). destruct (ceil_bounds (d_div X w) OD) as (E1 & E2). fold c in E1, E2.
  destruct (mul_q (d_int c) w (ok_int c C0) W) as (M1 & M2). rewrite (d_int_exact c) in M1, M2 by (destruct x; cbn [Z.sgn] in *; lia).
  change (qv X) with (seconds (Z.abs x)) in *.
  assert (WQ : (0 < qv w)%Q) by (destruct w as (p, q), W; cbn [fst snd] in *; unfold qv, Qlt; cbn [Qnum Qden fst snd]; lia).
  set (V := qv (d_mul (d_int c) w)) in *. set (Wv := qv w) in *. set (D := qv (d_div X w)) in *. set (K := inject_Z c) in *. set (S := seconds (Z.abs x)) in *.
  assert (U0 : (0 < 1 - uu)%Q) by reflexivity. assert (U1 : (0 < 1 + uu)%Q) by reflexivity.
  assert (K1 : (D * Wv <= K * Wv)%Q) by (apply Qmult_le_compat_r; lra). assert (K2 : (K * Wv <= (D + 1) * Wv)%Q) by (apply Qmult_le_compat_r; lra).
  split.
  - apply Qle_trans with (K * Wv * (1 - uu))%Q; [|exact M2]. apply Qmult_le_compat_r; lra.
  - apply Qle_trans with (K * Wv * (1 + uu))%Q; [exact M1|]. apply Qmult_le_compat_r; lra.
Qed.

(** the bucket of a delay, as the statistics use it; delays whose bucket is not defined are excluded below *)
Definition bucket_or_0 (w : Z * Z) (s r : timestamp) : Z := match bucket_of w (delay (owptime s) (owptime r)) with Some b => b | None => 0 end.

(** A percentile that is reported is the delay of some packet that was received, rounded away from 0: by one width of a bucket at most, and up to the
    precision of double.  Missing: the delay itself, refuted below; delays without a bucket, refuted below *)
Theorem C157_percentile_partial : forall start timeout npackets rec_size skips delta rlistlen w, ok w -> 0 < fst w -> session_ok start delta rlistlen ->
  forall used g c recs g', obtained start timeout npackets rec_size skips delta rlistlen (bucket_or_0 w) used g -> call_ok npackets rec_size c -> looks_at rec_size c recs ->
  do_call start timeout npackets rec_size skips delta rlistlen (bucket_or_0 w) c g = POk g' -> Z.of_nat (length recs) < 2^32 ->
  let R := first_copies [] (arrived (counting npackets skips c recs)) in
  (forall r, In r R -> bucket_of w (delay (owptime (r_send r)) (owptime (r_recv r))) <> None) ->
  forall s alpha v, Permutation (g_hist g') s -> StronglySorted (fun x y => fst x < fst y) s -> ok alpha -> percentile_value w alpha (g_sent g') s = Some v ->
  exists r, In r R /\ let x := delay (owptime (r_send r)) (owptime (r_recv r)) in
    ((0 <= x)%Z -> seconds x * (1 - uu) * (1 - uu) <= value v <= (seconds x * (1 + uu) + value w) * (1 + uu))%Q /\
    ((x <= 0)%Z -> seconds (Z.opp x) * (1 - uu) * (1 - uu) <= - value v <= (seconds (Z.opp x) * (1 + uu) + value w) * (1 + uu))%Q.
Proof.
  intros start timeout npackets rec_size skips delta rlistlen w W WP SO used g c recs g' O OK L E LB R DEF s alpha v PE SS (A1 & A2) V.
  pose proof (C46_percentile_partial start timeout npackets rec_size skips delta rlistlen (bucket_or_0 w) SO used g c recs g' O OK L E LB s (fst alpha) (snd alpha) PE SS A1 A2) as P.
  unfold percentile_value in V. replace (fst alpha, snd alpha) with alpha in P by (destruct alpha; reflexivity). destruct (d_mul alpha (d_int (g_sent g'))) as [p q]. cbn [fst snd] in V.
  destruct (percentile p q 0 s) as [b|]; [|discriminate]. injection V as <-. destruct P as ((r & I & B) & _). exists r. split; [exact I|].
  fold R in I. specialize (DEF r I). unfold bucket_or_0 in B. set (x := delay (owptime (r_send r)) (owptime (r_recv r))) in *. cbv zeta. destruct (bucket_of w x) as [b'|] eqn:BO; [|congruence]. subst b'.
  destruct (bucket_near w x b W WP BO) as (SG & N). unfold bucket_value, value. cbn [fst snd].
  pose proof (ok_mul (d_int (Z.abs b)) w (ok_int _ (Z.abs_nonneg _)) W) as OM. set (m := d_mul (d_int (Z.abs b)) w) in *. rewrite SG. change (fst w # Z.to_pos (snd w))%Q with (qv w).
  assert (S1 : 0 < x -> (Z.sgn x * fst m # Z.to_pos (snd m) == qv m)%Q) by (intros XP; rewrite Z.sgn_pos by lia; unfold qv, Qeq; cbn [Qnum Qden]; lia).
  assert (S2 : x < 0 -> (- (Z.sgn x * fst m # Z.to_pos (snd m)) == qv m)%Q) by (intros XP; rewrite Z.sgn_neg by lia; unfold qv, Qeq, Qopp; cbn [Qnum Qden]; lia).
  assert (Z0 : x = 0 -> (Z.sgn x * fst m # Z.to_pos (snd m) == 0)%Q /\ (seconds x == 0)%Q /\ (seconds (Z.opp x) == 0)%Q) by (intros ->; split; [|split]; reflexivity).
  assert (WQ : (0 < qv w)%Q) by (destruct w as (p', q'), W; cbn [fst snd] in *; unfold qv, Qlt; cbn [Qnum Qden fst snd]; lia).
  assert (UQ : (0 < uu)%Q) by reflexivity. assert (WU : (0 <= qv w * uu)%Q) by (apply Qmult_le_0_compat; lra).
  split; intros XS; (destruct (Z.eq_dec x 0) as [X0|XN]; [specialize (Z0 X0); destruct Z0 as (Z1 & Z2 & Z3); rewrite Z1, ?Z2, ?Z3; split; lra|]).
  - rewrite Z.abs_eq in N by lia. rewrite (S1 ltac:(lia)). exact N.
  - rewrite Z.abs_neq in N by lia. rewrite (S2 ltac:(lia)). exact N.
Qed.

(** With the width of 0.0001 s the median of a single packet is greater than its delay, which is reported as the maximum *)
Theorem C157_rounding_refuted : exists w x b v, w = b64 1 10000 /\ bucket_of w x = Some b /\ reported_max (2 * 2^32) [x] = Some x /\
  percentile_value w half 1 [(b, 1)] = Some v /\ (seconds x < value v)%Q.
Proof. exists (b64 1 10000), (2^32 / 100000), 1, (bucket_value (b64 1 10000) 1). split; [reflexivity|]. split; [vm_compute; reflexivity|]. split; [vm_compute; reflexivity|]. split; [vm_compute; reflexivity|]. vm_compute. reflexivity. Qed.

(** With that width a delay of three days (clocks that differ so much) has no bucket: the conversion to int is undefined *)
Theorem C157_range_refuted : exists w s r, w = b64 1 10000 /\ r - s = 3 * 86400 * 2^32 /\ 0 <= s < r /\ r < 2^64 /\ bucket_of w (delay s r) = None.
Proof. exists (b64 1 10000), (3990000000 * 2^32), (3990259200 * 2^32). split; [reflexivity|]. repeat split; vm_compute; reflexivity || discriminate. Qed.

Lemma percentile_mono : forall s p q p' q' sum b', 0 < q -> 0 < q' -> p * q' <= p' * q -> StronglySorted (fun x y => fst x < fst y) s ->
  percentile p' q' sum s = Some b' -> exists b, percentile p q sum s = Some b /\ b <= b' /\ In b (map fst s) /\ In b' (map fst s).
Proof.
  induction s as [|[b n] s IH]; intros p q p' q' sum b' Q Q' LE SS; [discriminate|]. apply StronglySorted_inv in SS. destruct SS as (SS & F). rewrite Forall_forall in F. cbn [percentile map fst In].
  destruct (Z.ltb_spec ((n + sum) * q') p') as [A|A]; destruct (Z.ltb_spec ((n + sum) * q) p) as [B|B].
  - intros E. destruct (IH p q p' q' (sum + n) b' Q Q' LE SS E) as (c & C1 & C2 & C3 & C4). exists c. auto.
  - intros E. destruct (IH p' q' p' q' (sum + n) b' Q' Q' ltac:(lia) SS E) as (c & _ & _ & _ & C4). exists b. split; [reflexivity|]. apply in_map_iff in C4. destruct C4 as (y & Y & I). specialize (F y I). cbn [fst] in F.
    split; [lia|]. split; [now left|right; apply in_map_iff; eauto].
  - exfalso. nia.
  - intros E. injection E as <-. exists b. split; [reflexivity|]. split; [lia|]. auto.
Qed.
Lemma value_mono : forall w a b, ok w -> a <= b -> fst (bucket_value w a) * snd (bucket_value w b) <= fst (bucket_value w b) * snd (bucket_value w a).
Proof.
  intros w a b W LE. unfold bucket_value. cbn [fst snd].
  assert (M : forall x y, 0 <= x <= y -> fst (d_mul (d_int x) w) * snd (d_mul (d_int y) w) <= fst (d_mul (d_int y) w) * snd (d_mul (d_int x) w)).
  { intros x y XY. pose proof (b64_mono x 1 y 1 ltac:(lia) ltac:(lia) ltac:(lia) ltac:(lia) ltac:(lia)) as B1. pose proof (ok_int x ltac:(lia)) as (X1 & X2). pose proof (ok_int y ltac:(lia)) as (Y1 & Y2). destruct W as (W1 & W2).
    unfold d_mul. unfold d_int in *. destruct (b64 x 1) as [x1 x2]. destruct (b64 y 1) as [y1 y2]. cbn [fst snd] in *.
    assert (PR : x1 * fst w * (y2 * snd w) <= y1 * fst w * (x2 * snd w)). { assert (0 <= fst w * snd w) by nia. replace (x1 * fst w * (y2 * snd w)) with (x1 * y2 * (fst w * snd w)) by ring. replace (y1 * fst w * (x2 * snd w)) with (y1 * x2 * (fst w * snd w)) by ring. apply Z.mul_le_mono_nonneg_r; lia. }
    pose proof (b64_mono (x1 * fst w) (x2 * snd w) (y1 * fst w) (y2 * snd w) ltac:(nia) ltac:(nia) ltac:(nia) ltac:(nia) PR) as B2.
    destruct (b64 (x1 * fst w) (x2 * snd w)), (b64 (y1 * fst w) (y2 * snd w)). cbn [fst snd]. exact B2. }
  pose proof (ok_mul (d_int (Z.abs a)) w (ok_int _ (Z.abs_nonneg _)) W) as (A1 & A2). pose proof (ok_mul (d_int (Z.abs b)) w (ok_int _ (Z.abs_nonneg _)) W) as (B1 & B2).
  destruct (Z.ltb_spec a 0) as [AN|AN]; [rewrite (Z.sgn_neg a) by lia|]; (destruct (Z.ltb_spec b 0) as [BN|BN]; [rewrite (Z.sgn_neg b) by lia|]).
  - specialize (M (Z.abs b) (Z.abs a) ltac:(lia)). nia.
  - assert (0 <= Z.sgn b) by lia. assert (0 <= Z.sgn b * fst (d_mul (d_int (Z.abs b)) w)) by nia. nia.
  - lia.
  - specialize (M (Z.abs a) (Z.abs b) ltac:(lia)). destruct (Z.eq_dec a 0) as [->|A0]; [cbn [Z.sgn]; assert (0 <= Z.sgn b) by lia; assert (0 <= Z.sgn b * fst (d_mul (d_int (Z.abs b)) w)) by nia; nia|].
    rewrite (Z.sgn_pos a), (Z.sgn_pos b) by lia. lia.
Qed.

(** The jitter is the difference of the 95th percentile and the median; it is reported whenever the former is, and is never negative.
    [b64 95 100]: the double next to 0.95; [(1, 2)]: one half *)
Theorem C157_pdv : forall w sent s, ok w -> 0 <= sent < 2^32 -> StronglySorted (fun x y => fst x < fst y) s ->
  (forall a, percentile_value w (b64 95 100) sent s = Some a -> exists b j, percentile_value w (1, 2) sent s = Some b /\ pdv w sent s = Some j /\ (value b <= value a)%Q /\ (0 <= value j)%Q /\
    ((value a - value b) * (1 - uu) <= value j <= (value a - value b) * (1 + uu))%Q) /\
  (percentile_value w (b64 95 100) sent s = None -> pdv w sent s = None).
Proof.
  change (b64 95 100) with most. change (1, 2) with half.
  intros w sent s W SE SS. unfold pdv. split; [|intros ->; reflexivity]. intros a A. rewrite A. unfold percentile_value in A |- *.
  set (t := d_mul half (d_int sent)). set (t' := d_mul most (d_int sent)) in *.
  assert (T : fst t * snd t' <= fst t' * snd t /\ 0 < snd t /\ 0 < snd t').
  { pose proof (ok_int sent ltac:(lia)) as (I1 & I2). unfold t, t', d_mul.
    pose proof (b64_mono (fst half * fst (d_int sent)) (snd half * snd (d_int sent)) (fst most * fst (d_int sent)) (snd most * snd (d_int sent))) as B.
    change (fst half) with 1 in *. change (snd half) with 2 in *. set (m1 := fst most) in *. set (m2 := snd most) in *. assert (MM : m2 <= 2 * m1 /\ 0 < m1 /\ 0 < m2) by (vm_compute; repeat split; discriminate || reflexivity).
    specialize (B ltac:(lia) ltac:(nia) ltac:(lia) ltac:(nia)). assert (PR : 1 * fst (d_int sent) * (m2 * snd (d_int sent)) <= m1 * fst (d_int sent) * (2 * snd (d_int sent))).
    { assert (0 <= fst (d_int sent) * snd (d_int sent)) by nia. nia. }
    specialize (B PR). pose proof (b64_den (1 * fst (d_int sent)) (2 * snd (d_int sent))). pose proof (b64_den (m1 * fst (d_int sent)) (m2 * snd (d_int sent))).
    destruct (b64 (1 * fst (d_int sent)) (2 * snd (d_int sent))), (b64 (m1 * fst (d_int sent)) (m2 * snd (d_int sent))). cbn [fst snd] in *. auto. }
  destruct T as (T1 & T2 & T3). destruct (percentile (fst t') (snd t') 0 s) as [b'|] eqn:P'; [|discriminate]. injection A as <-.
  destruct (percentile_mono s _ _ _ _ 0 b' T2 T3 T1 SS P') as (b & B1 & B2 & _). rewrite B1. eexists. eexists. split; [reflexivity|]. split; [reflexivity|].
  pose proof (value_mono w b b' W B2) as VM.
  assert (D1 : 0 < snd (bucket_value w b)) by (unfold bucket_value, d_mul; cbn [snd]; apply b64_den). assert (D2 : 0 < snd (bucket_value w b')) by (unfold bucket_value, d_mul; cbn [snd]; apply b64_den).
  set (x := bucket_value w b) in *. set (y := bucket_value w b') in *. set (n := fst y * snd x - fst x * snd y).
  assert (N0 : 0 <= n) by (unfold n; lia). rewrite Z.abs_eq by lia.
  destruct (b64_q n (snd y * snd x) N0 ltac:(nia)) as (Q1 & Q2). pose proof (b64_ok n (snd y * snd x) N0 ltac:(nia)) as (OB1 & OB2).
  assert (VD : (value y - value x == n # Z.to_pos (snd y * snd x))%Q).
  { unfold value, Qminus, Qplus, Qopp, Qeq. cbn [Qnum Qden]. rewrite ?Pos2Z.inj_mul, !Z2Pos.id by nia. unfold n. ring. }
  assert (VJ : Qeq (value (Z.sgn n * fst (b64 n (snd y * snd x)), snd (b64 n (snd y * snd x)))) (qv (b64 n (snd y * snd x)))).
  { unfold value, qv. cbn [fst snd]. destruct (Z.eq_dec n 0) as [->|NZ]; [reflexivity|]. rewrite Z.sgn_pos by lia. unfold Qeq. cbn [Qnum Qden]. lia. }
  split; [unfold value, Qle; cbn [Qnum Qden]; rewrite !Z2Pos.id by lia; exact VM|].
  rewrite VJ. split; [apply qv_nonneg; split; assumption|]. rewrite VD. split; assumption.
Qed.

(** nine packets, one of them late *)
Example C157_case : let w := b64 1 10000 in let s := [(10, 5); (12, 3); (400, 1)] in
  exists a b j, percentile_value w most 9 s = Some a /\ percentile_value w half 9 s = Some b /\ pdv w 9 s = Some j /\
  (Qle_bool (389 # 10000) (value j) && Qle_bool (value j) (391 # 10000) = true) /\ bucket_of w (- (2^32 / 100)) = Some (-100).
Proof. eexists. eexists. eexists. repeat (split; [vm_compute; reflexivity|]). vm_compute. reflexivity. Qed.

(** ** C158: the number of hops *)

(** Report against records: no packet, no report; one value, that of every packet; several values, the least, the greatest and how many.
    Missing: 256 different values (C46_ttl_refuted); packets whose TTL is unknown, refuted below *)
Theorem C158_report_partial : forall start timeout npackets rec_size skips delta rlistlen bucket, session_ok start delta rlistlen ->
  forall used g c recs g', obtained start timeout npackets rec_size skips delta rlistlen bucket used g -> call_ok npackets rec_size c -> looks_at rec_size c recs ->
  do_call start timeout npackets rec_size skips delta rlistlen bucket c g = POk g' ->
  let R := first_copies [] (arrived (counting npackets skips c recs)) in
  (length (nodup Z.eq_dec (map r_ttl R)) < 256)%nat ->
  match hops_line (g_ttl g') with
  | NotReported => R = []
  | Consistently h => R <> [] /\ forall r, In r R -> 255 - r_ttl r = h
  | Takes n lo hi => n = Z.of_nat (length (nodup Z.eq_dec (map (fun r => 255 - r_ttl r) R))) /\ 1 < n /\
      (exists r, In r R /\ 255 - r_ttl r = lo) /\ (exists r, In r R /\ 255 - r_ttl r = hi) /\ forall r, In r R -> lo <= 255 - r_ttl r <= hi
  end.
Proof.
  intros start timeout npackets rec_size skips delta rlistlen bucket SO used g c recs g' O OK L E R LT.
  pose proof (C46_ttl_partial start timeout npackets rec_size skips delta rlistlen bucket SO used g c recs g' O OK L E) as TTL. cbv zeta in TTL. fold R in TTL. clearbody R.
  unfold hops_line. destruct (ttl_stats (g_ttl g')) as [[num lo] hi]. destruct TTL as (T1 & T2). specialize (T2 LT). subst num.
  assert (SAME : length (nodup Z.eq_dec (map (fun r => 255 - r_ttl r) R)) = length (nodup Z.eq_dec (map r_ttl R))).
  { clear. induction R as [|r R IH]; [reflexivity|]. cbn [map nodup].
    destruct (in_dec Z.eq_dec (255 - r_ttl r) (map (fun r => 255 - r_ttl r) R)) as [A|A], (in_dec Z.eq_dec (r_ttl r) (map r_ttl R)) as [B|B]; cbn [length]; try lia; exfalso.
    - apply B. apply in_map_iff in A. destruct A as (x & X & I). apply in_map_iff. exists x. split; [lia|exact I].
    - apply A. apply in_map_iff in B. destruct B as (x & X & I). apply in_map_iff. exists x. split; [lia|exact I]. }
  destruct R as [|r0 R0] eqn:ER.
  { cbn. reflexivity. }
  rewrite <- ER in *. assert (NE : R <> []) by congruence. destruct (T1 NE) as ((a & A1 & A2) & (b & B1 & B2) & ALL).
  destruct (Z.ltb_spec (Z.of_nat (length (nodup Z.eq_dec (map r_ttl R)))) 1) as [N|N].
  { exfalso. assert (I : In (r_ttl a) (nodup Z.eq_dec (map r_ttl R))) by (apply nodup_In; apply in_map; exact A1). destruct (nodup Z.eq_dec (map r_ttl R)); [destruct I|cbn [length] in N; lia]. }
  destruct (Z.eqb_spec (Z.of_nat (length (nodup Z.eq_dec (map r_ttl R)))) 1) as [N1|N1].
  - split; [exact NE|]. intros r I. assert (IA : In (r_ttl a) (nodup Z.eq_dec (map r_ttl R))) by (apply nodup_In; apply in_map; exact A1).
    assert (IR : In (r_ttl r) (nodup Z.eq_dec (map r_ttl R))) by (apply nodup_In; apply in_map; exact I). destruct (nodup Z.eq_dec (map r_ttl R)) as [|v [|v' l]]; [destruct IA| |cbn [length] in N1; lia].
    destruct IA as [IA|[]], IR as [IR|[]]. lia.
  - split; [lia|]. split; [lia|]. split; [exists b; split; [exact B1|lia]|]. split; [exists a; split; [exact A1|lia]|]. intros r I. specialize (ALL r I). lia.
Qed.

(** The TTL of a record is the one the system tells: for both families, the one control message that was asked for *)
Theorem C158_recorded_partial : forall rc t rest, 0 <= rc -> 0 <= t < 256 ->
  recvfromttl 2 (mkReceived rc true false [mkCmsg 0 2 (t :: rest)]) = (rc, t) /\
  recvfromttl 2 (mkReceived rc true false [mkCmsg 0 12 (t :: rest)]) = (rc, t) /\
  recvfromttl 10 (mkReceived rc true false [mkCmsg 41 52 (t :: rest)]) = (rc, t).
Proof.
  intros rc t rest RC T. unfold recvfromttl. cbn [v_rc v_control v_ctrunc v_msgs]. replace (rc <? 0) with false by lia. cbn [negb orb walk cm_level cm_type cm_data]. repeat split; reflexivity.
Qed.

(** A datagram that comes with control data the receiver did not ask for is never recorded, nor is one of another address family *)
Theorem C158_unknown_control : forall family len d m before after, (0 < len)%nat ->
  (forall x, In x before -> (family = 2 /\ cm_level x = 0 /\ (cm_type x = 2 \/ cm_type x = 12)) \/ (family = 10 /\ cm_level x = 41 /\ cm_type x = 52)) ->
  ~ ((family = 2 /\ cm_level m = 0 /\ (cm_type m = 2 \/ cm_type m = 12)) \/ (family = 10 /\ cm_level m = 41 /\ cm_type m = 52)) ->
  taken family len d true false (before ++ m :: after) = None.
Proof.
  intros family len d m before after LP KB NK. unfold taken, recvfromttl. cbn [v_rc v_control v_ctrunc v_msgs negb orb]. set (rc := Z.of_nat (length (delivered len d))). assert (RC : 0 <= rc) by (unfold rc; lia).
  replace (rc <? 0) with false by lia. generalize 255. induction before as [|x before IH]; intros ttl; cbn [app walk].
  - assert (W : (if family =? 10 then if (cm_level m =? 41) && (cm_type m =? 52) then walk family rc (low_octet (cm_data m)) after else (- rc, ttl)
      else if family =? 2 then if (cm_level m =? 0) && (cm_type m =? 12) then walk family rc (byte 0 (cm_data m)) after
        else if (cm_level m =? 0) && (cm_type m =? 2) then walk family rc (low_octet (cm_data m)) after else (- rc, ttl) else (- rc, ttl)) = (- rc, ttl)).
    { destruct (Z.eqb_spec family 10); [destruct (Z.eqb_spec (cm_level m) 41), (Z.eqb_spec (cm_type m) 52); cbn [andb]; try reflexivity; exfalso; apply NK; lia|].
      destruct (Z.eqb_spec family 2); [|reflexivity]. destruct (Z.eqb_spec (cm_level m) 0), (Z.eqb_spec (cm_type m) 12), (Z.eqb_spec (cm_type m) 2); cbn [andb]; try reflexivity; exfalso; apply NK; lia. }
    rewrite W. replace (- rc =? Z.of_nat len) with false by lia. reflexivity.
  - specialize (IH (fun y I => KB y (or_intror I))). destruct (KB x (or_introl eq_refl)) as [(F & LV & [T|T])|(F & LV & T)]; rewrite F, LV, T; subst family; cbn [Z.eqb Pos.eqb andb]; apply IH.
Qed.

(** If the system does not tell the TTL, the packets are recorded as if no router was passed, and the report says so *)
Theorem C158_unknown_refuted : exists counts, (forall family len d, length d = len -> exists p, taken family len d false false [] = Some (p, 255)) /\
  length counts = 256%nat /\ nth 255 counts 0 = 10 /\ fold_right Z.add 0 counts = 10 /\ hops_line counts = Consistently 0.
Proof.
  exists (repeat 0 255 ++ [10]). split; [|vm_compute; repeat split; reflexivity]. intros family len d LE. exists d. unfold taken, recvfromttl, delivered. cbn [v_rc v_control v_ctrunc v_msgs negb orb].
  rewrite firstn_all2 by lia. replace (Z.of_nat (length d) <? 0) with false by lia. replace (Z.of_nat (length d) =? Z.of_nat len) with true by lia. reflexivity.
Qed.

Example C158_case : hops_line (repeat 0 240 ++ [3; 0; 2] ++ repeat 0 13) = Takes 2 13 15 /\ hops_line (repeat 0 256) = NotReported /\
  taken 10 4 [1; 2; 3; 4] true false [mkCmsg 41 52 [61; 0; 0; 0]] = Some ([1; 2; 3; 4], 61).
Proof. vm_compute. repeat split; reflexivity. Qed.

(** ** C159: the size of a datagram *)

(** A datagram shorter than a packet of the session is not taken for one.  Missing: longer ones, refuted below *)
Theorem C159_short_partial : forall family len d control ctrunc msgs, (length d < len)%nat -> taken family len d control ctrunc msgs = None.
Proof.
  intros family len d control ctrunc msgs LE. unfold taken, delivered. rewrite firstn_all2 by lia.
  assert (W : forall l ttl rc, 0 <= rc -> fst (walk family rc ttl l) = rc \/ fst (walk family rc ttl l) = - rc).
  { induction l as [|m l IH]; intros ttl rc RC; cbn [walk]; [now left|]. destruct (family =? 10); [destruct (_ && _); [now apply IH|now right]|]. destruct (family =? 2); [|now right].
    destruct (_ && _); [now apply IH|]. destruct (_ && _); [now apply IH|now right]. }
  assert (X : fst (recvfromttl family (mkReceived (Z.of_nat (length d)) control ctrunc msgs)) < Z.of_nat len).
  { unfold recvfromttl. cbn [v_rc v_control v_ctrunc v_msgs]. destruct (_ <? 0); [cbn; lia|]. destruct (_ || _); [cbn; lia|]. destruct (W msgs 255 (Z.of_nat (length d)) ltac:(lia)); lia. }
  destruct (recvfromttl _ _) as [rc ttl]. cbn [fst] in X. replace (rc =? Z.of_nat len) with false by lia. reflexivity.
Qed.
(** What is taken for a packet has the size of one, and is how the datagram begins *)
Theorem C159_beginning : forall family len d control ctrunc msgs p ttl, taken family len d control ctrunc msgs = Some (p, ttl) -> length p = len /\ exists rest, d = p ++ rest.
Proof.
  intros family len d control ctrunc msgs p ttl E. destruct (Nat.ltb_spec (length d) len) as [S|G]; [rewrite C159_short_partial in E by exact S; discriminate|].
  unfold taken, delivered in E. destruct (recvfromttl _ _) as [rc t]. destruct (rc =? _); [|discriminate]. injection E as <- _. split; [apply firstn_length_le; exact G|]. exists (skipn len d). symmetry. apply firstn_skipn.
Qed.
(** A longer one is taken for a packet, whatever follows *)
Theorem C159_long_refuted : forall p rest, rest <> [] -> exists family msgs, taken family (length p) (p ++ rest) true false msgs = Some (p, 64) /\ (length p < length (p ++ rest))%nat.
Proof.
  intros p rest NE. exists 2, [mkCmsg 0 2 [64; 0; 0; 0]]. split; [|rewrite app_length; destruct rest; [congruence|cbn [length]; lia]].
  unfold taken, recvfromttl, delivered. rewrite firstn_app, Nat.sub_diag, firstn_all, firstn_O, app_nil_r. cbn [v_rc v_control v_ctrunc v_msgs negb orb walk cm_level cm_type cm_data Z.eqb Pos.eqb andb].
  replace (Z.of_nat (length p) <? 0) with false by lia. rewrite Z.eqb_refl. reflexivity.
Qed.
Example C159_case : taken 2 4 [1; 2; 3] true false [mkCmsg 0 2 [64; 0; 0; 0]] = None /\ taken 2 4 [1; 2; 3; 4; 5] true false [mkCmsg 0 2 [64; 0; 0; 0]] = Some ([1; 2; 3; 4], 64).
Proof. vm_compute. split; reflexivity. Qed.

(** ** C160: the code point and the times *)

(** The code point is printed exactly if the type of the packets is one, and it is the one that was asked for *)
Theorem C160_dscp : forall t, 0 <= t < 2^32 -> forall d, dscp_line t = Some d <-> 0 <= d < 64 /\ t = d * 2^24.
Proof.
  intros t T d. unfold dscp_line. split.
  - destruct (Z.eqb_spec (Z.land t 3238002687) 0) as [E|E]; [|discriminate]. intros X. injection X as <-.
    assert (B : forall i, 0 <= i -> Z.testbit t i = true -> 24 <= i < 30).
    { intros i I TB. destruct (Z.ltb_spec i 32) as [I2|I2]; [|exfalso; rewrite Z.bits_above_log2 in TB; [discriminate|lia|]; destruct (Z.eq_dec t 0) as [->|]; [cbn; lia|apply Z.log2_lt_pow2; [lia|]; apply Z.lt_le_trans with (2^32); [lia|apply Z.pow_le_mono_r; lia]]].
      assert (X : Z.testbit (Z.land t 3238002687) i = false) by (rewrite E; apply Z.bits_0). rewrite Z.land_spec, TB in X. cbn [andb] in X.
      assert (M : forall j, 0 <= j < 32 -> Z.testbit 3238002687 j = false -> 24 <= j < 30).
      { intros j J. assert (F : forallb (fun n => Z.testbit 3238002687 (Z.of_nat n) || ((24 <=? n) && (n <? 30))%nat) (seq 0 32) = true) by (vm_compute; reflexivity). rewrite forallb_forall in F.
        specialize (F (Z.to_nat j) ltac:(apply in_seq; lia)). rewrite Z2Nat.id in F by lia. intros Q. rewrite Q in F. lia. }
      apply M; [lia|exact X]. }
    assert (S : Z.shiftr t 24 < 64).
    { rewrite Z.shiftr_div_pow2 by lia. change (2^24) with 16777216. destruct (Z.ltb_spec t (2^30)) as [L|L]; [apply Z.div_lt_upper_bound; lia|]. exfalso.
      assert (LG : 30 <= Z.log2 t) by (apply Z.log2_le_pow2; lia). pose proof (Z.bit_log2 t ltac:(lia)) as BT. specialize (B (Z.log2 t) ltac:(lia) BT). lia. }
    assert (S0 : 0 <= Z.shiftr t 24) by (apply Z.shiftr_nonneg; lia). unfold u8. rewrite Z.mod_small by lia. split; [lia|].
    rewrite <- Z.shiftl_mul_pow2 by lia. apply Z.bits_inj'. intros i I. rewrite Z.shiftl_spec by lia. destruct (Z.ltb_spec i 24) as [L|L].
    + rewrite (Z.testbit_neg_r _ (i - 24)) by lia. destruct (Z.testbit t i) eqn:TB; [specialize (B i I TB); lia|reflexivity].
    + rewrite Z.shiftr_spec by lia. f_equal. lia.
  - intros (D & ->). assert (F : forallb (fun n => let x := Z.of_nat n * 2^24 in (Z.land x 3238002687 =? 0) && (u8 (Z.shiftr x 24) =? Z.of_nat n)) (seq 0 64) = true) by (vm_compute; reflexivity).
    rewrite forallb_forall in F. specialize (F (Z.to_nat d) ltac:(apply in_seq; lia)). cbv zeta in F. rewrite Z2Nat.id in F by lia. apply andb_true_iff in F. destruct F as (-> & F). apply Z.eqb_eq in F. now rewrite F.
Qed.
Theorem C160_asked_for : forall s t, parse_typeP s = Some t -> exists d, dscp_line t = Some d /\ t = d * 2^24 /\ (0 < d -> traffic_class t = Some (Some (4 * d))).
Proof.
  intros s t E. destruct (C97_only s t E) as (d & D & T & _). exists d. split; [apply C160_dscp; [lia|auto]|]. split; [exact T|]. intros P.
  destruct (C97_packets t ltac:(lia)) as (C & _). apply C. exists d. split; [lia|]. auto.
Qed.

(** The times in seconds since 1970 are exact to 2 microseconds, for all times up to the year 2036.  Missing: later ones, refuted below *)
Theorem C160_times_partial : forall t, 0 <= t < 2^64 -> (- 2 # 1000000 <= (unix_micros t # 1000000) - (seconds t - inject_Z 2208988800) <= 2 # 1000000)%Q.
Proof.
  intros t T. unfold unix_micros, unix_time, delay.
  assert (E : dbl (2208988800 * 2^32) = 2208988800 * 2^32) by (vm_compute; reflexivity). rewrite E. pose proof (dbl_near t T) as N1. set (x := dbl t - 2208988800 * 2^32) in *.
  assert (B : - 2^64 < x < 2^64) by lia. pose proof (dbl_near (Z.abs x) ltac:(lia)) as N2.
  assert (D0 : 0 <= dbl (Z.abs x)) by (unfold dbl, d_trunc; apply Z.div_pos; [apply b64_nonneg; lia|apply b64_den]).
  set (y := Z.sgn x * dbl (Z.abs x)) in *.
  assert (Y : - 2^12 <= y - (t - 2208988800 * 2^32) <= 2^12) by (unfold y; destruct (Z.sgn_spec x) as [(X & ->)|[(X & ->)|(X & ->)]]; lia).
  pose proof (rne_err (Z.abs y * 1000000) (2^32) ltac:(lia)) as R. set (k := rne (Z.abs y * 1000000) (2^32)) in *.
  assert (K : - 2^32 <= 2 * (Z.sgn y * k * 2^32 - y * 1000000) <= 2^32).
  { destruct (Z.sgn_spec y) as [(X & ->)|[(X & ->)|(X & ->)]]; lia. }
  set (z := Z.sgn y * k) in *. unfold seconds, inject_Z, Qle, Qminus, Qplus, Qopp. cbn [Qnum Qden]. change (Z.pos (2^32)) with (2^32). change (Z.pos (1000000 * (2 ^ 32 * 1))) with (1000000 * 2^32). change (Z.pos (2^32*1)) with (2^32). lia.
Qed.
(** A packet of the year 2042 is dated before 1970 *)
Theorem C160_after_2036_refuted : exists unix t, unix = 2272147200 /\ t = (unix + 2208988800) mod 2^32 * 2^32 /\ unix_micros t = (unix - 2^32) * 1000000 /\ unix_micros t < 0.
Proof. exists 2272147200, (186168704 * 2^32). split; [reflexivity|]. split; [reflexivity|]. split; vm_compute; reflexivity. Qed.

Example C160_case : dscp_line (46 * 2^24) = Some 46 /\ dscp_line 0 = Some 0 /\ dscp_line (2^30) = None /\ dscp_line 1 = None /\ unix_micros (3990000000 * 2^32 + 2^31) = 1781011200500000.
Proof. vm_compute. repeat split; reflexivity. Qed.

Print Assumptions C156_adds_up_partial.
Print Assumptions C156_extremes.
Print Assumptions C156_ttl_refuted.
Print Assumptions C157_percentile_partial.
Print Assumptions C157_rounding_refuted.
Print Assumptions C157_range_refuted.
Print Assumptions C157_pdv.
Print Assumptions C158_report_partial.
Print Assumptions C158_recorded_partial.
Print Assumptions C158_unknown_control.
Print Assumptions C158_unknown_refuted.
Print Assumptions C159_short_partial.
Print Assumptions C159_beginning.
Print Assumptions C159_long_refuted.
Print Assumptions C160_dscp.
Print Assumptions C160_asked_for.
Print Assumptions C160_times_partial.
Print Assumptions C160_after_2036_refuted.
