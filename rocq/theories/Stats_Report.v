(** What the reported figures mean: percentiles, TTLs, reordering, numbers of packets, next offset. *)
From Coq Require Import ZArith List Bool Lia ZifyBool ZifyNat Arith Sorted Permutation.
From Verif Require Import Base BaseLemmas Arith_Model Time_Model Wire_Model Wire_Spec File_Model File_Spec File_Proofs File_Updates Sender_Spec Receiver_Spec
  Double Double_Proofs Stats_Model Stats_Spec Stats_Proofs Stats_Iter Stats_Parse.
Import ListNotations.
Open Scope Z_scope.
Ltac Zify.zify_post_hook ::= Z.div_mod_to_equations.

(** ** Percentiles *)
Definition below (b : Z) (h : list (Z * Z)) : Z := fold_right (fun x n => (if fst x <=? b then snd x else 0) + n) 0 h.
Definition by_bucket (x y : Z * Z) : Prop := fst x < fst y.
Lemma below_perm : forall b h h', Permutation h h' -> below b h = below b h'.
Proof. intros b h h' P. induction P; cbn [below fold_right]; fold (below b l) (below b l') || idtac; unfold below in *; cbn [fold_right] in *; lia. Qed.
Lemma below_none : forall b s, Forall (fun y => b < fst y) s -> below b s = 0.
Proof.
  intros b s F. induction F as [|x s H F IH]; [reflexivity|]. unfold below in *. cbn [fold_right]. rewrite IH. replace (fst x <=? b) with false by lia. lia.
Qed.
Lemma below_mono : forall b b' s, Forall (fun y => 0 < snd y) s -> b <= b' -> below b s <= below b' s.
Proof.
  intros b b' s F L. induction F as [|x s H F IH]; [cbn; lia|]. unfold below in *. cbn [fold_right].
  destruct (Z.leb_spec (fst x) b), (Z.leb_spec (fst x) b'); lia.
Qed.
(** the sorted part still to look at is [s]; [sum]: samples in the buckets before it *)
Lemma percentile_spec : forall thr den s sum, 0 < den -> StronglySorted by_bucket s -> Forall (fun y => 0 < snd y) s ->
  match percentile thr den sum s with
  | Some b => In b (map fst s) /\ thr <= (sum + below b s) * den /\ (forall b', In b' (map fst s) -> b' < b -> (sum + below b' s) * den < thr)
  | None => forall b', In b' (map fst s) -> (sum + below b' s) * den < thr
  end.
Proof.
  intros thr den s sum D SO. revert sum. induction SO as [|[b n] s SO IH F]; intros sum P; [intros b' []|]. apply Forall_cons_iff in P. destruct P as (P0 & P). cbn [snd] in P0.
  cbn [percentile]. unfold by_bucket in F. cbn [fst] in F.
  assert (B0: below b ((b, n) :: s) = n). { unfold below. cbn [fold_right fst snd]. fold (below b s). rewrite (below_none b s F). replace (b <=? b) with true by lia. lia. }
  assert (BT: forall b', In b' (map fst s) -> below b' ((b, n) :: s) = n + below b' s).
  { intros b' I. unfold below. cbn [fold_right fst snd]. apply in_map_iff in I. destruct I as (y & <- & I). rewrite Forall_forall in F. specialize (F y I).
    replace (b <=? fst y) with true by lia. reflexivity. }
  destruct (Z.ltb_spec ((n + sum) * den) thr) as [L|L].
  - specialize (IH (sum + n) P). destruct (percentile thr den (sum + n) s) as [c|].
    + destruct IH as (I1 & I2 & I3). cbn [map In fst]. split; [now right|]. rewrite (BT c I1). split; [lia|]. intros b' [<- | I] L'; [rewrite B0; lia|]. rewrite (BT b' I).
      specialize (I3 b' I L'). lia.
    + intros b' [<- | I]; [cbn [fst]; rewrite B0; lia|]. rewrite (BT b' I). specialize (IH b' I). lia.
  - cbn [map In fst]. split; [now left|]. rewrite B0. split; [lia|]. intros b' [<- | I] L'; [lia|]. apply in_map_iff in I. destruct I as (y & <- & I). rewrite Forall_forall in F. specialize (F y I). lia.
Qed.
Lemma samples_count : forall bk h, hist_ok h -> forall (R : list datarec) b, (forall b, samples h b = count (fun r => bk r =? b) R) ->
  below b h = count (fun r => bk r <=? b) R.
Proof.
  intros bk h (ND & _). induction h as [|[x n] h IH]; intros R b S.
  - destruct R as [|r R]; [reflexivity|]. exfalso. specialize (S (bk r)). unfold count in S. cbn [samples fold_right filter] in S. rewrite Z.eqb_refl in S. cbn [length] in S. lia.
  - cbn [map fst] in ND. apply NoDup_cons_iff in ND. destruct ND as (NI & ND).
    assert (Z0: forall l, ~ In x (map fst l) -> samples l x = 0).
    { induction l as [|[y m] l IHl]; intros NX; [reflexivity|]. cbn [samples fold_right fst snd]. fold (samples l x). cbn [map In fst] in NX.
      rewrite IHl by tauto. replace (y =? x) with false by (symmetry; apply Z.eqb_neq; tauto). reflexivity. }
    assert (Sx: n = count (fun r => bk r =? x) R). { rewrite <- S. cbn [samples fold_right fst snd]. fold (samples h x). rewrite (Z0 h NI), Z.eqb_refl. lia. }
    set (R' := filter (fun r => negb (bk r =? x)) R).
    assert (CF: forall f g (l : list datarec), count f (filter g l) = count (fun r => g r && f r) l).
    { intros f g l. unfold count. f_equal. induction l as [|y l IHl]; [reflexivity|]. cbn [filter]. destruct (g y) eqn:G; cbn [filter andb length]; [destruct (f y); cbn [length]|]; lia. }
    assert (S': forall c, samples h c = count (fun r => bk r =? c) R').
    { intros c. unfold R'. rewrite CF. specialize (S c). cbn [samples fold_right fst snd] in S. fold (samples h c) in S.
      destruct (Z.eqb_spec x c) as [XC|NC].
      - subst c. rewrite (Z0 h NI). unfold count. replace (filter _ R) with (@nil datarec); [reflexivity|]. clear. induction R as [|r R IHR]; [reflexivity|]. cbn [filter]. destruct (bk r =? x); exact IHR.
      - rewrite Z.add_0_l in S. rewrite S. unfold count. f_equal. f_equal. apply filter_ext. intros r. destruct (Z.eqb_spec (bk r) c), (Z.eqb_spec (bk r) x); cbn [negb andb]; lia. }
    specialize (IH ND R' b S'). unfold below in *. cbn [fold_right fst snd]. rewrite IH. unfold R'. rewrite CF, Sx. unfold count. clear.
    induction R as [|r R IH]; cbn [filter length]; [destruct (x <=? b); reflexivity|].
    destruct (Z.eqb_spec (bk r) x) as [->|N]; cbn [negb andb]; destruct (Z.leb_spec x b); cbn [length]; try lia; destruct (Z.leb_spec (bk r) b); cbn [length]; lia.
Qed.

(** the comparison with the rounded product: right for every integer that is large enough, and wrong by one part in 2^53 at most *)
Lemma rounded_threshold : forall an ad sent c, 0 <= an -> 0 < ad -> 0 <= sent < 2^32 -> 0 <= c < 2^32 ->
  let (p, q) := d_mul (an, ad) (d_int sent) in
  0 < q /\ (an * sent <= c * ad -> p <= c * q) /\ (p <= c * q -> (2^53 - 1) * (an * sent) <= 2^53 * (c * ad)).
Proof.
  intros an ad sent c A D S C. unfold d_mul, d_int. pose proof (b64_int sent ltac:(lia)) as BI. pose proof (b64_den sent 1) as BD. destruct (b64 sent 1) as [s t]. cbn [fst snd] in *.
  subst s. assert (N0: 0 <= an * (sent * t)) by nia. assert (D0: 0 < ad * t) by nia.
  pose proof (b64_den (an * (sent * t)) (ad * t)) as BQ. pose proof (b64_le_int (an * (sent * t)) (ad * t) c ltac:(lia) N0 D0) as LE.
  pose proof (b64_err (an * (sent * t)) (ad * t) N0 D0) as ER. destruct (b64 (an * (sent * t)) (ad * t)) as [p q]. cbn [snd] in BQ.
  split; [exact BQ|]. split; [intros H; apply LE; nia|]. intros H. destruct ER as (ER & _).
  assert (X: (2^53 - 1) * (an * (sent * t)) * q <= 2^53 * (c * (ad * t)) * q) by nia.
  assert (Y: (2^53 - 1) * (an * (sent * t)) <= 2^53 * (c * (ad * t))) by (eapply Z.mul_le_mono_pos_r; eauto). nia.
Qed.

(** ** TTLs *)

Lemma ttl_num_loop : forall counts i num lo hi, num = u8 num -> fst (fst (ttl_loop i counts num lo hi)) = u8 (num + Z.of_nat (length (filter (fun x => negb (x =? 0)) counts))).
Proof.
  induction counts as [|c r IH]; intros i num lo hi N; cbn [ttl_loop filter]; [cbn [fst length]; rewrite N at 1; f_equal; lia|].
  destruct (c =? 0); cbn [negb]; [now apply IH|]. cbn [length]. rewrite IH by (unfold u8; rewrite Z.mod_mod; lia). unfold u8. rewrite Zplus_mod_idemp_l. f_equal. lia.
Qed.
Definition is_min (P : Z -> Prop) (m : Z) : Prop := P m /\ forall x, P x -> m <= x.
Definition is_max (P : Z -> Prop) (m : Z) : Prop := P m /\ forall x, P x -> x <= m.
(** [done]: the values below i observed *)
Lemma ttl_min_loop : forall counts i num lo hi (P : Z -> Prop), 0 <= i -> i + Z.of_nat (length counts) <= 256 ->
  (forall t, i <= t < i + Z.of_nat (length counts) -> (P t <-> nth (Z.to_nat (t - i)) counts 0 <> 0)) ->
  (forall t, P t -> 0 <= t < i + Z.of_nat (length counts)) ->
  ((forall t, P t -> i <= t) /\ lo = 255 /\ hi = 0 \/ is_min (fun t => P t /\ t < i) lo /\ is_max (fun t => P t /\ t < i) hi) ->
  let '(_, lo', hi') := ttl_loop i counts num lo hi in (exists t, P t) -> is_min P lo' /\ is_max P hi'.
Proof.
  induction counts as [|c r IH]; intros i num lo hi P I0 LE PC PB ST; cbn [ttl_loop].
  - intros (t & T). destruct ST as [(A & _ & _)|(A & B)].
    + exfalso. pose proof (A t T). pose proof (PB t T). cbn [length] in *. lia.
    + cbn [length] in *. split; split; try apply A; try apply B; intros x X; [apply A|apply B]; (split; [exact X|]; pose proof (PB x X); lia).
  - cbn [length] in *. assert (PI: P i <-> c <> 0). { rewrite (PC i ltac:(lia)). rewrite Z.sub_diag. reflexivity. }
    assert (PC': forall t, i + 1 <= t < i + 1 + Z.of_nat (length r) -> (P t <-> nth (Z.to_nat (t - (i + 1))) r 0 <> 0)).
    { intros t T. rewrite (PC t ltac:(lia)). replace (Z.to_nat (t - i)) with (S (Z.to_nat (t - (i + 1)))) by lia. reflexivity. }
    assert (PB': forall t, P t -> 0 <= t < i + 1 + Z.of_nat (length r)) by (intros t T; pose proof (PB t T); lia).
    destruct (Z.eqb_spec c 0) as [E|E].
    + apply IH; auto; try lia. destruct ST as [(A & B & C)|(A & B)].
      * left. split; [|auto]. intros t T. pose proof (A t T). assert (t <> i) by (intros ->; tauto). lia.
      * right. destruct A as ((A1 & A2) & A3), B as ((B1 & B2) & B3). split; split; try (split; [assumption|lia]); intros x (X1 & X2);
          assert (x <> i) by (intros ->; tauto); [apply A3|apply B3]; (split; [exact X1|lia]).
    + apply IH; auto; try lia. right. assert (Pi: P i) by tauto. unfold u8.
      destruct ST as [(A & -> & ->)|(A & B)].
      * assert (Ei: (if i <? 255 then i mod M8 else 255) = i) by (destruct (Z.ltb_spec i 255); [apply Z.mod_small; lia|lia]).
        assert (Eh: (if 0 <? i then i mod M8 else 0) = i) by (destruct (Z.ltb_spec 0 i); [apply Z.mod_small; lia|lia]).
        rewrite Ei, Eh. split; split; try (split; [exact Pi|lia]); intros x (X1 & X2); pose proof (A x X1); lia.
      * destruct A as ((A1 & A2) & A3), B as ((B1 & B2) & B3). pose proof (PB _ A1). pose proof (PB _ B1).
        replace (i <? lo) with false by lia. replace (hi <? i) with true by lia. rewrite Z.mod_small by lia.
        split; split; try (split; [assumption|lia]); intros x (X1 & X2); [|lia].
        destruct (Z.eq_dec x i) as [->|NX]; [lia|]. apply A3. split; [exact X1|lia].
Qed.

(** ** Reordering *)
Lemma behind_weaker : forall n x prev, behind_larger (S n) x prev = true -> behind_larger n x prev = true.
Proof.
  intros n x prev B. unfold behind_larger in *. apply andb_true_iff in B. destruct B as (B1 & B2). apply andb_true_iff. split; [lia|].
  rewrite forallb_forall in *. intros y I. apply B2. clear - I. revert prev I. induction n as [|n IH]; intros prev I; [destruct I|].
  destruct prev as [|p prev]; [destruct I|]. cbn [firstn In] in *. destruct I as [<- | I]; [now left|right; now apply IH].
Qed.
Lemma reordered_weaker : forall n l prev, 0 <= reordered_from (S n) prev l <= reordered_from n prev l.
Proof.
  intros n. induction l as [|x l IH]; intros prev; cbn [reordered_from]; [lia|]. specialize (IH (x :: prev)).
  destruct (behind_larger (S n) x prev) eqn:B; [rewrite (behind_weaker _ _ _ B); lia|]. destruct (behind_larger n x prev); lia.
Qed.
Lemma reordered_zero : forall n m l, (n <= m)%nat -> reordered n l = 0 -> reordered m l = 0.
Proof.
  intros n m l L E. induction L as [|m L IH]; [exact E|]. unfold reordered in *. pose proof (reordered_weaker m l []). lia.
Qed.
Lemma copies_nodup : forall recs before, NoDup (map r_seq recs) -> (forall r, In r recs -> ~ In (r_seq r) before) -> first_copies before recs = recs.
Proof.
  induction recs as [|r recs IH]; intros before ND B; cbn [first_copies]; [reflexivity|]. cbn [map] in ND. apply NoDup_cons_iff in ND. destruct ND as (NI & ND).
  destruct (in_dec Z.eq_dec (r_seq r) before) as [I|I]; [exfalso; apply (B r); [now left|exact I]|]. f_equal. apply IH; [exact ND|].
  intros x X [E|E]; [apply NI; rewrite E; now apply in_map|apply (B x); [now right|exact E]].
Qed.

(** ** Numbers of packets *)
Lemma nodup_len_perm : forall (l l' : list Z), (forall x, In x l <-> In x l') -> length (nodup Z.eq_dec l) = length (nodup Z.eq_dec l').
Proof.
  intros l l' E. apply Permutation_length. apply NoDup_Permutation; try apply NoDup_nodup. intros x. rewrite !nodup_In. apply E.
Qed.
Lemma nodup_len_app : forall (l l' : list Z), (forall x, In x l -> ~ In x l') -> length (nodup Z.eq_dec (l ++ l')) = (length (nodup Z.eq_dec l) + length (nodup Z.eq_dec l'))%nat.
Proof.
  induction l as [|x l IH]; intros l' D; [reflexivity|]. cbn [app nodup]. specialize (IH l' (fun y Y => D y (or_intror Y))).
  destruct (in_dec Z.eq_dec x (l ++ l')) as [I|I], (in_dec Z.eq_dec x l) as [J|J]; cbn [length]; try lia.
  - apply in_app_iff in I. destruct I as [I|I]; [tauto|]. exfalso. apply (D x); [now left|exact I].
  - exfalso. apply I. apply in_app_iff. now left.
Qed.
Lemma received_in : forall q R, (0 < received_of q R)%nat <-> In q (map r_seq (arrived R)).
Proof.
  intros q R. unfold received_of, arrived. rewrite in_map_iff. split.
  - intros L. destruct (filter _ R) as [|x l] eqn:E in L; [cbn in L; lia|]. assert (I: In x (filter (fun r => (r_seq r =? q) && negb (is_lost r)) R)) by (rewrite E; now left).
    apply filter_In in I. destruct I as (I1 & I2). apply andb_true_iff in I2. exists x. split; [lia|]. apply filter_In. tauto.
  - intros (r & E & I). apply filter_In in I. destruct I as (I1 & I2). assert (I: In r (filter (fun r => (r_seq r =? q) && negb (is_lost r)) R)) by (apply filter_In; split; [exact I1|]; rewrite I2; lia).
    destruct (filter _ R); [destruct I|cbn; lia].
Qed.
Lemma lost_in : forall q R, (0 < lost_of q R)%nat <-> In q (map r_seq (lost R)).
Proof.
  intros q R. unfold lost_of, lost. rewrite in_map_iff. split.
  - intros L. destruct (filter _ R) as [|x l] eqn:E in L; [cbn in L; lia|]. assert (I: In x (filter (fun r => (r_seq r =? q) && is_lost r) R)) by (rewrite E; now left).
    apply filter_In in I. destruct I as (I1 & I2). apply andb_true_iff in I2. exists x. split; [lia|]. apply filter_In. tauto.
  - intros (r & E & I). apply filter_In in I. destruct I as (I1 & I2). assert (I: In r (filter (fun r => (r_seq r =? q) && is_lost r) R)) by (apply filter_In; split; [exact I1|]; rewrite I2; lia).
    destruct (filter _ R); [destruct I|cbn; lia].
Qed.
Lemma distinct_split : forall R, (forall q, lost_of q R = 0 \/ received_of q R = 0)%nat -> distinct R = distinct (arrived R) + distinct (lost R).
Proof.
  intros R X. unfold distinct. rewrite <- Nat2Z.inj_add. f_equal. rewrite <- nodup_len_app.
  - apply nodup_len_perm. intros q. rewrite in_app_iff, !in_map_iff. unfold arrived, lost. split.
    + intros (r & E & I). destruct (is_lost r) eqn:L; [right|left]; exists r; (split; [exact E|]); apply filter_In; rewrite L; auto.
    + intros [(r & E & I)|(r & E & I)]; apply filter_In in I; exists r; tauto.
  - intros q A B. apply received_in in A. apply lost_in in B. specialize (X q). lia.
Qed.
Lemma lost_once : forall R, (forall q, (lost_of q R <= 1)%nat) -> NoDup (map r_seq (lost R)).
Proof.
  induction R as [|r R IH]; intros L; [constructor|]. unfold lost. cbn [filter]. destruct (is_lost r) eqn:E.
  - fold (lost R). cbn [map]. constructor.
    + rewrite <- lost_in. specialize (L (r_seq r)). unfold lost_of in *. cbn [filter] in L. rewrite Z.eqb_refl, E in L. cbn [andb length] in L. lia.
    + apply IH. intros q. specialize (L q). unfold lost_of in *. cbn [filter] in L. destruct (_ && _); cbn [length] in L; lia.
  - apply IH. intros q. specialize (L q). unfold lost_of in *. cbn [filter] in L. destruct (_ && _); cbn [length] in L; lia.
Qed.
Lemma distinct_nodup : forall l, NoDup (map r_seq l) -> distinct l = Z.of_nat (length l).
Proof. intros l N. unfold distinct. rewrite (nodup_fixed_point Z.eq_dec N). now rewrite map_length. Qed.
(** every packet of the range is in the records or declared as not sent *)
Lemma distinct_full : forall first last skips recs, 0 <= first -> (forall q, first <= q < last -> (exists r, In r recs /\ r_seq r = q) \/ not_sent skips q = true) ->
  distinct (relevant first last skips recs) =
  Z.of_nat (length (filter (fun q => negb (not_sent skips q)) (map (fun n => first + Z.of_nat n) (seq 0 (Z.to_nat (last - first)))))).
Proof.
  intros first last skips recs F0 A. unfold distinct. f_equal. set (l := filter _ (map _ _)).
  assert (ND: NoDup l). { apply NoDup_filter. apply FinFun.Injective_map_NoDup; [intros x y E; lia|apply seq_NoDup]. }
  rewrite <- (nodup_fixed_point Z.eq_dec ND). apply nodup_len_perm. intros q. unfold l. rewrite filter_In, !in_map_iff. unfold relevant. split.
  - intros (r & E & I). apply filter_In in I. destruct I as (I & J). unfold in_range in J. rewrite E in J. split; [|destruct (not_sent skips q); lia].
    exists (Z.to_nat (q - first)). split; [lia|]. apply in_seq. lia.
  - intros ((n & E & I) & J). apply in_seq in I. destruct (A q ltac:(lia)) as [(r & X & Y)|X]; [|rewrite X in J; discriminate].
    exists r. split; [exact Y|]. apply filter_In. split; [exact X|]. unfold in_range. rewrite Y, J. lia.
Qed.

(** ** Where the next range starts *)
Lemma first_from_none : forall last recs, first_from last recs = None -> forall r, In r recs -> r_seq r < last.
Proof.
  induction recs as [|x recs IH]; intros E r I; [destruct I|]. cbn [first_from] in E. destruct (Z.leb_spec last (r_seq x)); [discriminate|].
  destruct (first_from last recs); [discriminate|]. destruct I as [<- | I]; [lia|auto].
Qed.
Lemma first_from_some : forall last recs i, first_from last recs = Some i -> (i < length recs)%nat /\ forall r, In r (firstn i recs) -> r_seq r < last.
Proof.
  induction recs as [|x recs IH]; intros i E; [discriminate|]. cbn [first_from] in E. destruct (Z.leb_spec last (r_seq x)); [injection E as <-; split; [cbn; lia|intros r []]|].
  destruct (first_from last recs) as [j|]; [|discriminate]. injection E as <-. destruct (IH j eq_refl) as (A & B). split; [cbn [length]; lia|].
  cbn [firstn In]. intros r [<- | I]; [lia|auto].
Qed.
Lemma relevant_skipn : forall first last skips recs i, (forall r, In r (firstn i recs) -> r_seq r < first) ->
  relevant first last skips (skipn i recs) = relevant first last skips recs.
Proof.
  intros first last skips recs i A. rewrite <- (firstn_skipn i recs) at 2. unfold relevant. rewrite filter_app.
  replace (filter _ (firstn i recs)) with (@nil datarec); [reflexivity|]. symmetry. revert A. generalize (firstn i recs) as l. induction l as [|r l IH]; intros A; [reflexivity|].
  cbn [filter]. unfold in_range at 1. pose proof (A r (or_introl eq_refl)). replace (first <=? r_seq r) with false by lia. cbn [andb]. apply IH. intros x X. apply A. now right.
Qed.
Lemma nth_record_shift : forall f pos len i k, nth_record f (pos + len * i) len k = nth_record f pos len (i + k).
Proof. intros f pos len i k. unfold nth_record. f_equal. lia. Qed.
Lemma nth_skipn : forall A (l : list A) i k, nth_error (skipn i l) k = nth_error l (i + k).
Proof. induction l as [|x l IH]; intros [|i] k; cbn [skipn Nat.add nth_error]; auto. now destruct k. Qed.
Lemma readable_skipn : forall R (dec : list Z -> option R) f pos len n l i, (i <= length l)%nat -> readable dec f pos len n l ->
  readable dec f (pos + len * i) len (n - i) (skipn i l).
Proof.
  intros R dec f pos len n l i I (A & B & C). split; [rewrite skipn_length; lia|]. split.
  - intros k r K. rewrite nth_skipn in K. destruct (B _ _ K) as (B1 & B2). rewrite nth_record_shift. split; [|exact B2]. rewrite !Nat.mul_succ_r in *. rewrite Nat.mul_add_distr_l in B1. lia.
  - rewrite skipn_length, nth_record_shift. replace (i + (length l - i))%nat with (length l) by lia. intros L. destruct (C ltac:(lia)) as [C1|C1]; [left|right; exact C1].
    rewrite !Nat.mul_succ_r in *. rewrite Nat.mul_sub_distr_l. pose proof (Nat.mul_le_mono_l i (length l) len I). lia.
Qed.
