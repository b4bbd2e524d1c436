(** The invariant of the summary of one-way sessions. *)
From Coq Require Import ZArith List Bool Lia ZifyBool ZifyNat Arith.
From Verif Require Import Base BaseLemmas Arith_Model Time_Model Wire_Model Wire_Spec File_Model File_Spec Sender_Spec Receiver_Spec Stats_Model Stats_Spec Stats_Proofs.
Import ListNotations.
Open Scope Z_scope.
Ltac Zify.zify_post_hook ::= Z.div_mod_to_equations.

(** ** Updates of lists *)
Lemma upd_length : forall A (l : list A) i v, length (upd i v l) = length l.
Proof. induction l as [|x l IH]; intros [|i] v; cbn [upd length]; auto. Qed.
Lemma upd_nth : forall A (l : list A) i j v d, nth j (upd i v l) d = if ((j =? i)%nat && (i <? length l)%nat)%bool then v else nth j l d.
Proof.
  induction l as [|x l IH]; intros [|i] [|j] v d; cbn [upd nth length]; rewrite ?andb_false_r; try reflexivity. rewrite IH. reflexivity.
Qed.

(** ** Reordering *)
Lemma firstn_nth : forall (l : list Z) k i d, (i < k)%nat -> nth i (firstn k l) d = nth i l d.
Proof. induction l as [|x l IH]; intros [|k] [|i] d H; cbn [firstn nth]; auto; try lia. apply IH. lia. Qed.
Lemma behind_zero : forall prev j seq, 0 <= seq -> behind_larger (S j) seq prev = forallb (fun x => seq <? nth x prev 0) (List.seq 0 (S j)).
Proof.
  intros prev j seq S0. apply Bool.eq_iff_eq_true. unfold behind_larger. rewrite andb_true_iff, !forallb_forall. split.
  - intros (L & A) x I. apply in_seq in I. apply A. rewrite <- (firstn_nth prev (S j) x 0) by lia. apply nth_In. rewrite firstn_length. lia.
  - intros A. assert (L: (S j <= length prev)%nat).
    { destruct (Nat.le_gt_cases (S j) (length prev)) as [L|L]; [exact L|]. specialize (A j). rewrite nth_overflow in A by lia.
      rewrite in_seq in A. lia. }
    split; [lia|]. intros x I. destruct (In_nth _ _ 0 I) as (i & I1 & I2). rewrite firstn_length in I1. specialize (A i).
    rewrite <- (firstn_nth prev (S j) i 0), I2 in A by lia. apply A. apply in_seq. lia.
Qed.
Ltac ringx := repeat match goal with |- context[if ?c then _ else _] => destruct c eqn:? end; lia.
Section Ring.
Context {n : nat}.
Definition get (i : nat) (ro : reord) : Z := nth (rseqindex n (o_index ro - Z.of_nat i - 1)) (o_seqno ro) 0.
(** [prev]: numbers of the packets so far, latest first *)
Definition ring (prev : list Z) (ro : reord) : Prop :=
  (0 < n)%nat /\ length (o_seqno ro) = n /\ length (o_n ro) = n /\ 0 <= o_index ro < Z.of_nat n /\ Z.of_nat (length prev) <= o_num ro /\
  (forall i, (i < n)%nat -> get i ro = nth i prev 0) /\ (forall i, (i < n)%nat -> nth i (o_n ro) 0 = reordered (S i) (rev prev)).

Lemma count_length : forall m i seq ro, length (reorder_count n i m seq ro) = length (o_n ro).
Proof using. induction m as [|m IH]; intros i seq ro; cbn [reorder_count]; [reflexivity|]. destruct (_ <? _); [|reflexivity]. rewrite IH. cbn [o_n]. apply upd_length. Qed.
Lemma count_get : forall m i seq ro j, length (o_n ro) = n -> (i + m <= n)%nat -> (j < n)%nat ->
  nth j (reorder_count n i m seq ro) 0 = nth j (o_n ro) 0 +
    (if (i <=? j)%nat && (j <? i + m)%nat && forallb (fun x => seq <? get x ro) (List.seq i (S j - i)) then 1 else 0).
Proof using.
  induction m as [|m IH]; intros i seq ro j L B J; cbn [reorder_count].
  - replace ((i <=? j)%nat && (j <? i + 0)%nat) with false by lia. cbn [andb]. lia.
  - fold (get i ro). destruct (Nat.leb_spec i j) as [IJ|IJ]; cbn [andb].
    + replace (S j - i)%nat with (S (S j - S i)) by lia. cbn [List.seq forallb]. destruct (Z.ltb_spec seq (get i ro)) as [C|C]; cbn [andb].
      * rewrite IH by (cbn [o_n]; rewrite ?upd_length; lia). cbn [o_n]. rewrite upd_nth.
        assert (G: forall x, get x (mkRo (o_seqno ro) (upd i (nth i (o_n ro) 0 + 1) (o_n ro)) (o_index ro) (o_num ro)) = get x ro) by reflexivity.
        replace (i <? length (o_n ro))%nat with true by lia. rewrite andb_true_r.
        destruct (Nat.eqb_spec j i) as [->|JI].
        -- replace (S i - S i)%nat with 0%nat by lia. cbn [List.seq forallb]. rewrite andb_true_r. replace (S i <=? i)%nat with false by lia. cbn [andb].
           replace (i <? i + S m)%nat with true by lia. cbn [andb]. lia.
        -- replace (S i <=? j)%nat with true by lia. replace (j <? S i + m)%nat with (j <? i + S m)%nat by lia. cbn [andb]. reflexivity.
      * rewrite andb_false_r. lia.
    + destruct (_ <? _); [|lia]. rewrite IH by (cbn [o_n]; rewrite ?upd_length; lia). cbn [o_n]. rewrite upd_nth.
      replace (j =? i)%nat with false by lia. replace (S i <=? j)%nat with false by lia. cbn [andb]. lia.
Qed.
Lemma reorder_ring : forall prev ro seq, 0 <= seq -> ring prev ro -> ring (seq :: prev) (reorder n seq ro).
Proof using.
  intros prev ro seq S0 (N0 & L1 & L2 & I & NU & G & C). unfold ring. cbn [o_seqno o_n o_index o_num reorder]. rewrite upd_length, count_length.
  split; [exact N0|]. split; [exact L1|]. split; [exact L2|]. split; [lia|]. split; [cbn [length]; lia|]. split.
  - intros i Hi. unfold get. cbn [o_index o_seqno reorder]. rewrite upd_nth.
    assert (MD: (o_index ro + 1) mod Z.of_nat n = if o_index ro + 1 =? Z.of_nat n then 0 else o_index ro + 1).
    { destruct (Z.eqb_spec (o_index ro + 1) (Z.of_nat n)) as [->|X]; [apply Z_mod_same_full|apply Z.mod_small; lia]. }
    rewrite MD. clear MD. destruct i as [|i].
    + cbn [nth]. match goal with |- (if ?c then _ else _) = _ => replace c with true end; [reflexivity|].
      symmetry. unfold rseqindex. ringx.
    + cbn [nth]. match goal with |- (if ?c then _ else _) = _ => replace c with false end.
      2: { symmetry. unfold rseqindex. ringx. }
      rewrite <- (G i) by lia. unfold get. f_equal. unfold rseqindex. ringx.
  - intros i Hi. rewrite count_get by lia. rewrite (C i Hi). cbn [rev]. unfold reordered at 2. rewrite reordered_snoc. fold (reordered (S i) (rev prev)).
    f_equal. rewrite rev_involutive, app_nil_r. rewrite (behind_zero prev i seq S0). replace (0 <=? i)%nat with true by lia. cbn [andb].
    replace (S i - 0)%nat with (S i) by lia. rewrite Nat.add_0_l.
    assert (X: forallb (fun x => seq <? get x ro) (List.seq 0 (S i)) = forallb (fun x => seq <? nth x prev 0) (List.seq 0 (S i))).
    { apply Bool.eq_iff_eq_true. rewrite !forallb_forall. split; intros A x Ix; specialize (A x Ix); apply in_seq in Ix; rewrite G in * by lia; exact A. }
    rewrite X. destruct (forallb (fun x => seq <? nth x prev 0) (List.seq 0 (S i))) eqn:F; [|now rewrite andb_false_r].
    rewrite andb_true_r. replace (i <? _)%nat with true; [reflexivity|]. symmetry.
    rewrite <- (behind_zero prev i seq S0) in F. unfold behind_larger in F. apply andb_true_iff in F. destruct F as (F & _). lia.
Qed.
End Ring.

(** ** Histogram *)
Lemma samples_increment : forall h b x, samples (increment b h) x = samples h x + (if b =? x then 1 else 0).
Proof.
  induction h as [|(y, k) h IH]; intros b x; cbn [increment samples fold_right fst snd]; [lia|].
  destruct (Z.eqb_spec y b) as [->|Y]; cbn [fold_right fst snd]; [destruct (b =? x); lia|].
  fold (samples (increment b h) x). rewrite IH. fold (samples h x). lia.
Qed.
Definition hist_ok (h : list (Z * Z)) : Prop := NoDup (map fst h) /\ forall x, In x h -> 0 < snd x.
Lemma increment_fst : forall b h x, In x (map fst (increment b h)) <-> x = b \/ In x (map fst h).
Proof.
  intros b. induction h as [|(y, k) h IH]; intros x; cbn [increment map fst In]; [intuition congruence|].
  destruct (Z.eqb_spec y b) as [->|Y]; cbn [map fst In]; [intuition congruence|]. rewrite IH. tauto.
Qed.
Lemma increment_ok : forall b h, hist_ok h -> hist_ok (increment b h).
Proof.
  intros b. induction h as [|(y, k) h IH]; intros (A & B); cbn [increment].
  - split; [repeat constructor; intros []|]. intros x [<-|[]]. cbn. lia.
  - inversion A as [|? ? A1 A2]; subst. assert (H: hist_ok h) by (split; [exact A2|intros x I; apply B; now right]).
    destruct (Z.eqb_spec y b) as [->|Y].
    + split; [exact A|]. intros x [<-|I]; [cbn [snd]; specialize (B (b, k) (or_introl eq_refl)); cbn [snd] in B; lia|apply B; now right].
    + destruct (IH H) as (C & D). split.
      * cbn [map fst]. constructor; [|exact C]. rewrite increment_fst. cbn [fst] in A1. tauto.
      * intros x [<-|I]; [apply B; now left|auto].
Qed.
Lemma count_snoc : forall f l r, count f (l ++ [r]) = count f l + (if f r then 1 else 0).
Proof. intros. unfold count. rewrite filter_snoc, app_length. destruct (f r); cbn [length]; lia. Qed.

(** ** Changing one node *)
Definition at_seq (q : Z) (f : pkt -> pkt) (l : list pkt) : list pkt := map (fun p => if k_seq p =? q then f p else p) l.
Lemma at_seq_none : forall q f l, (forall p, In p l -> k_seq p <> q) -> at_seq q f l = l.
Proof.
  induction l as [|x l IH]; intros N; cbn [at_seq map]; [reflexivity|]. fold (at_seq q f l). rewrite IH by (intros; apply N; now right).
  destruct (Z.eqb_spec (k_seq x) q) as [E|E]; [|reflexivity]. destruct (N x); [now left|exact E].
Qed.
Lemma at_seq_sums : forall q f l lo i p, run lo l -> nth_error l i = Some p -> k_seq p = q ->
  dsum (at_seq q f l) = dsum l + (Z.max 0 (k_seen (f p) - 1) - Z.max 0 (k_seen p - 1)) /\
  lsum (at_seq q f l) = lsum l + ((if k_lost (f p) then 1 else 0) - (if k_lost p then 1 else 0)).
Proof.
  intros q f. induction l as [|x l IH]; intros lo i p R N Q; [destruct i; discriminate|]. pose proof (R 0%nat x eq_refl) as X.
  cbn [at_seq map]. fold (at_seq q f l). destruct i as [|i]; cbn [nth_error] in N.
  - injection N as ->. rewrite Q, Z.eqb_refl. cbn [dsum lsum]. rewrite at_seq_none; [lia|].
    intros y I. destruct (In_nth_error _ _ I) as (j & J). rewrite (R (S j) y J). lia.
  - pose proof (R (S i) p N) as P. replace (k_seq x =? q) with false by lia. cbn [dsum lsum].
    destruct (IH (lo + 1) i p (run_tail _ _ _ R) N Q) as (-> & ->). lia.
Qed.
Lemma at_seq_run : forall q f l lo, (forall p, k_seq (f p) = k_seq p) -> run lo l -> run lo (at_seq q f l).
Proof.
  intros q f l lo F R i p N. unfold at_seq in N. rewrite nth_error_map in N. destruct (nth_error l i) as [x|] eqn:E; [|discriminate].
  injection N as <-. rewrite <- (R i x E). destruct (_ =? q); [apply F|reflexivity].
Qed.

Lemma relevant_snoc : forall first last skips recs r, relevant first last skips (recs ++ [r]) =
  relevant first last skips recs ++ (if in_range first last r && negb (not_sent skips (r_seq r)) then [r] else []).
Proof. intros. unfold relevant. now rewrite filter_snoc. Qed.
Lemma first_from_snoc : forall last recs r, first_from last (recs ++ [r]) =
  match first_from last recs with Some i => Some i | None => if last <=? r_seq r then Some (length recs) else None end.
Proof.
  intros last. induction recs as [|x recs IH]; intros r; cbn [app first_from length]; [reflexivity|].
  destruct (last <=? r_seq x); [reflexivity|]. rewrite IH. destruct (first_from last recs); [reflexivity|]. cbn [option_map]. destruct (last <=? r_seq r); reflexivity.
Qed.
Lemma first_from_lt : forall last recs i, first_from last recs = Some i -> (i < length recs)%nat.
Proof.
  intros last. induction recs as [|x recs IH]; intros i E; cbn [first_from length] in *; [discriminate|].
  destruct (last <=? r_seq x); [injection E as <-; lia|]. destruct (first_from last recs); [|discriminate]. injection E as <-. specialize (IH _ eq_refl). lia.
Qed.
Definition copies (recs : list datarec) : list datarec := first_copies [] (arrived recs).

(** ** The invariant *)
Section Iter.
Context {start timeout npackets rec_size : Z} {skips : list skiprec} {delta : nat -> Z} {rlistlen : nat} {bucket : timestamp -> timestamp -> Z}.
Notation iterate := (iterate timeout rec_size delta rlistlen bucket).
Notation sch := (sched_stamp start delta).
Notation fwd := (@fwd start delta).
Notation counted := (@counted skips).
Notation skips_ok := (@skips_ok skips).
Notation emptied := (@emptied start delta).
Notation ring := (@ring rlistlen).
Notation node_ok := (@node_ok start delta).
Definition thresh (r : datarec) : Z := (owptime (r_recv r) - timeout) mod 2^64.

Definition pk_inv (first last : Z) (R : list datarec) (lo : Z) (k : pk) : Prop :=
  fwd first last R lo k /\ counted R /\ sums (Z.of_nat (length (arrived R)) - distinct (arrived R)) (distinct (lost R)) k /\ skips_ok lo k /\
  (exists e, p_bck k = mkBuf [mkPkt first (sch first) 0 false] e (first + 1)) /\ p_dups1 k = 0.
Definition justified (first last : Z) (recs : list datarec) (lo : Z) : Prop :=
  lo = first \/ (first < lo < last /\ exists r, In r recs /\ in_range first last r = true /\ if is_lost r then lo <= r_seq r else sch (lo - 1) < thresh r).
Definition Inv (first last begin : Z) (recs : list datarec) (lo : Z) (g : stats) : Prop :=
  let R := relevant first last skips recs in
  (g_first g = first /\ g_last g = last /\ justified first last recs lo /\ pk_inv first last R lo (g_pk g)) /\
  g_sent g = distinct (arrived R) + Z.of_nat (length (lost R)) /\
  ring (rev (map r_seq (arrived R))) (g_ro g) /\
  hist_ok (g_hist g) /\ (forall b, samples (g_hist g) b = count (fun r => bucket (r_send r) (r_recv r) =? b) (copies R)) /\
  length (g_ttl g) = 256%nat /\ (forall t, 0 <= t < 256 -> nth (Z.to_nat t) (g_ttl g) 0 = count (fun r => r_ttl r =? t) (copies R)) /\
  g_sync g = forallb synced R /\
  (g_i g = Z.of_nat (length recs) /\ g_begin g = begin /\
   g_next g = match first_from last recs with Some i => begin + Z.of_nat i * rec_size | None => 0 end /\ g_start_time g = sch first).

(** an object that can be used for the next summary; [used]: not the first time *)
Definition usable (used : bool) (g : stats) : Prop :=
  let k := g_pk g in
  (0 < rlistlen)%nat /\ 0 <= o_index (g_ro g) < Z.of_nat rlistlen /\ 0 <= o_num (g_ro g) /\
  0 <= b_isctx (p_fwd k) /\ p_gen k = Z.to_nat (b_isctx (p_fwd k)) /\
  p_endnum k = (if b_isctx (p_fwd k) =? 0 then start else sch (b_isctx (p_fwd k) - 1)) /\
  if used then end_seq (p_fwd k) <> None /\ end_seq (p_bck k) <> None else end_seq (p_fwd k) = None /\ end_seq (p_bck k) = None.

Lemma fwd_usable : forall first last R lo k, 0 <= first -> fwd first last R lo k ->
  0 <= b_isctx (p_fwd k) /\ p_gen k = Z.to_nat (b_isctx (p_fwd k)) /\ p_endnum k = (if b_isctx (p_fwd k) =? 0 then start else sch (b_isctx (p_fwd k) - 1)) /\ end_seq (p_fwd k) <> None.
Proof.
  intros first last R lo k F0 F. rewrite (fwd_end _ _ _ _ _ F). destruct F as (NE & RN & L0 & L1 & IC & GE & EN & ND & AB).
  assert (TP: lo <= top lo k). { unfold top. destruct (b_list (p_fwd k)); [now destruct NE|cbn [length]; lia]. }
  rewrite IC, GE, EN. replace (top lo k + 1 =? 0) with false by lia. split; [lia|]. split; [reflexivity|]. split; [f_equal; lia|discriminate].
Qed.
Lemma emptied_usable : forall k, emptied k ->
  0 <= b_isctx (p_fwd k) /\ p_gen k = Z.to_nat (b_isctx (p_fwd k)) /\ p_endnum k = (if b_isctx (p_fwd k) =? 0 then start else sch (b_isctx (p_fwd k) - 1)) /\ end_seq (p_fwd k) <> None.
Proof.
  intros k (E1 & E2 & E3 & E4). replace (b_isctx (p_fwd k) =? 0) with false by lia. split; [lia|]. split; [exact E3|]. split; [exact E4|].
  rewrite E1. discriminate.
Qed.

(** adding a record of packet [q] to the buffers *)
Lemma pk_add : forall first last R lo k p r d n, fwd first last R lo k -> counted R -> sums d n k ->
  0 <= first -> in_range first last r = true -> not_sent skips (r_seq r) = false ->
  nth_error (b_list (p_fwd k)) (Z.to_nat (r_seq r - lo)) = Some p -> k_seq p = r_seq r ->
  (is_lost r = true -> k_seen p = 0) -> (is_lost r = false -> k_lost p = false) -> r_seq r <= top lo k ->
  let f := if is_lost r then (fun p => mkPkt (k_seq p) (k_time p) (k_seen p) true) else (fun p => mkPkt (k_seq p) (k_time p) (k_seen p + 1) (k_lost p)) in
  let k' := set_pkt (r_seq r) f k in
  fwd first last (R ++ [r]) lo k' /\ counted (R ++ [r]) /\
  sums (if is_lost r then d else d + (if k_seen p =? 0 then 0 else 1)) (if is_lost r then n + (if k_lost p then 0 else 1) else n) k'.
Proof.
  intros first last R lo k p r d n F C SU F0 IR NS NT PS C1 C2 TP f k'. unfold k'.
  assert (FS: forall x, k_seq (f x) = k_seq x /\ k_time (f x) = k_time x) by (intros x; unfold f; destruct (is_lost r); split; reflexivity).
  destruct F as (NE & RN & L0 & L1 & IC & GE & EN & ND & AB). destruct C as (CA & CB). destruct SU as (U1 & U2).
  assert (PIN: In p (b_list (p_fwd k))) by (eapply nth_error_In; eauto).
  rewrite Forall_forall in ND. pose proof (ND p PIN) as (P1 & P2 & P3). rewrite PS in P1, P2, P3.
  assert (TT: top lo (set_pkt (r_seq r) f k) = top lo k). { unfold top, set_pkt. cbn [set_buf p_fwd b_list]. now rewrite map_length. }
  split; [|split].
  - unfold Stats_Proofs.fwd. rewrite TT. unfold set_pkt. cbn [set_buf p_fwd b_list b_isctx p_gen p_endnum]. fold (at_seq (r_seq r) f (b_list (p_fwd k))).
    split. { intros X. apply (f_equal (@length _)) in X. unfold at_seq in X. rewrite map_length in X. destruct (b_list (p_fwd k)); [now destruct NE|discriminate]. }
    split; [apply at_seq_run; [intros; apply FS|exact RN]|]. repeat (split; [assumption|]). split.
    + apply Forall_forall. intros x I. unfold at_seq in I. apply in_map_iff in I. destruct I as (y & <- & I). pose proof (ND y I) as (Y1 & Y2 & Y3).
      destruct (Z.eqb_spec (k_seq y) (r_seq r)) as [E|E].
      * unfold Stats_Proofs.node_ok. rewrite (proj1 (FS y)), (proj2 (FS y)), lost_of_snoc, received_of_snoc. rewrite E, Z.eqb_refl. cbn [andb].
        rewrite E in Y1, Y2, Y3. split; [exact Y1|]. unfold f. destruct (is_lost r) eqn:LR; cbn [k_seen k_lost negb]; rewrite ?Y2, ?Y3.
        -- split; lia.
        -- split; [lia|]. now rewrite Nat.add_0_r.
      * unfold Stats_Proofs.node_ok. rewrite lost_of_snoc, received_of_snoc. replace (r_seq r =? k_seq y) with false by lia. cbn [andb]. rewrite !Nat.add_0_r. auto.
    + intros x I. apply in_app_iff in I. destruct I as [I|[<-|[]]]; [auto|exact TP].
  - split.
    + intros x I. apply in_app_iff in I. destruct I as [I|[<-|[]]]; auto.
    + intros q. rewrite lost_of_snoc, received_of_snoc. destruct (Z.eqb_spec (r_seq r) q) as [<-|E]; cbn [andb]; [|rewrite !Nat.add_0_r; apply CB].
      destruct (is_lost r) eqn:LR; cbn [negb].
      * specialize (C1 eq_refl). right. lia.
      * specialize (C2 eq_refl). rewrite P3 in C2. left. lia.
  - destruct (at_seq_sums (r_seq r) f (b_list (p_fwd k)) lo _ p RN NT PS) as (D1 & D2).
    unfold sums, set_pkt. cbn [set_buf p_fwd b_list p_dups0 p_lost]. fold (at_seq (r_seq r) f (b_list (p_fwd k))). rewrite D1, D2. unfold f.
    destruct (is_lost r) eqn:LR; cbn [k_seen k_lost]; [split; [lia|destruct (k_lost p); lia]|].
    assert (0 <= k_seen p) by lia. split; [destruct (Z.eqb_spec (k_seen p) 0); lia|lia].
Qed.

Lemma next_snoc : forall last begin recs r g, 0 < begin -> 0 <= rec_size -> g_i g = Z.of_nat (length recs) -> g_begin g = begin ->
  g_next g = match first_from last recs with Some i => begin + Z.of_nat i * rec_size | None => 0 end -> g_last g = last ->
  (if (g_next g =? 0) && (g_last g <=? r_seq r) then g_begin g + g_i g * rec_size else g_next g) =
  match first_from last (recs ++ [r]) with Some i => begin + Z.of_nat i * rec_size | None => 0 end.
Proof.
  intros last begin recs r g B RS GI GB GN GL. rewrite first_from_snoc, GN, GI, GB, GL. destruct (first_from last recs) as [i|].
  - replace (begin + Z.of_nat i * rec_size =? 0) with false by nia. reflexivity.
  - rewrite Z.eqb_refl. cbn [andb]. destruct (last <=? r_seq r); reflexivity.
Qed.

Lemma arrived_snoc : forall R r, arrived (R ++ [r]) = arrived R ++ (if is_lost r then [] else [r]).
Proof. intros. unfold arrived. rewrite filter_snoc. now destruct (is_lost r). Qed.
Lemma lost_snoc : forall R r, lost (R ++ [r]) = lost R ++ (if is_lost r then [r] else []).
Proof. intros. unfold lost. rewrite filter_snoc. now destruct (is_lost r). Qed.
Lemma skip_same : forall lo q k, skips_ok lo k -> lo <= q -> in_skip q (p_skips k) = not_sent skips q.
Proof.
  intros lo q k (A & B) Q. apply Bool.eq_iff_eq_true. unfold in_skip, not_sent. rewrite !existsb_exists. split; intros (s & I & H); exists s; split; auto.
  destruct (B s I) as [X|X]; [exact X|lia].
Qed.

Lemma step_inv : forall first last begin recs lo g r, 0 <= first -> 0 < begin -> 0 <= rec_size -> 0 <= r_ttl r < 256 -> Inv first last begin recs lo g ->
  match iterate r g with
  | SCrash => False
  | SRet rc g' => (rc = 0 /\ exists lo', Inv first last begin (recs ++ [r]) lo' g') \/
      (rc = -1 /\ usable true g' /\ in_range first last r = true /\
        (r_seq r < lo \/ (is_lost r = false /\ sch (r_seq r) < thresh r) \/
         (is_lost r = true /\ 0 < received_of (r_seq r) (relevant first last skips recs))%nat \/
         (is_lost r = false /\ 0 < lost_of (r_seq r) (relevant first last skips recs))%nat))
  end.
Proof.
  intros first last begin recs lo g r F0 B0 RS TTL ((GF & GL & JU & PK) & SE & RI & HO & HI & TL & TT & SY & GI & GB & GN & GS).
  set (R := relevant first last skips recs) in *. unfold Stats_Model.iterate.
  cbn [g_first g_last g_sent g_pk g_ro g_hist g_ttl g_sync g_start_time g_i g_begin g_next].
  rewrite (next_snoc last begin recs r g B0 RS GI GB GN GL). rewrite GF, GL.
  assert (LEN: g_i g + 1 = Z.of_nat (length (recs ++ [r]))) by (rewrite app_length; cbn [length]; lia).
  assert (JU': justified first last (recs ++ [r]) lo).
  { destruct JU as [JU|(JU1 & x & JU2 & JU3)]; [now left|right]. split; [exact JU1|]. exists x. split; [apply in_app_iff; now left|exact JU3]. }
  destruct ((r_seq r <? first) || (last <=? r_seq r)) eqn:OUT.
  { left. split; [reflexivity|]. exists lo. unfold Inv. rewrite relevant_snoc.
    replace (in_range first last r) with false by (unfold in_range; lia). cbn [andb]. rewrite app_nil_r. fold R.
    cbn [g_first g_last g_sent g_pk g_ro g_hist g_ttl g_sync g_start_time g_i g_begin g_next]. repeat (split; auto). }
  assert (IR: in_range first last r = true) by (unfold in_range; lia).
  destruct PK as (F & C & SU & SK & BK & D1).
  set (mq := fun q => if is_lost r then q <? r_seq r else sch q <? thresh r).
  pose proof (while_fwd (fuel_for first last) (fun n => if is_lost_rec r then k_seq n <? r_seq r else k_time n <? OWPNum64Sub (owptime (r_recv r)) timeout)
     mq first last R lo _ _ (g_pk g) F0 F C SU SK) as W.
  destruct F as (NE & RN & L0 & L1 & _).
  specialize (W ltac:(intros p (P & _); unfold mq, is_lost_rec, is_lost, thresh; rewrite P; reflexivity) ltac:(unfold fuel_for; lia)).
  assert (US: forall k, p_bck k = p_bck (g_pk g) ->
     0 <= b_isctx (p_fwd k) /\ p_gen k = Z.to_nat (b_isctx (p_fwd k)) /\ p_endnum k = (if b_isctx (p_fwd k) =? 0 then start else sch (b_isctx (p_fwd k) - 1)) /\ end_seq (p_fwd k) <> None ->
     forall i nx, usable true (mkSt first last (g_sent g) k (g_ro g) (g_hist g) (g_ttl g) (g_sync g) (g_start_time g) i (g_begin g) nx)).
  { intros k BE (U1 & U2 & U3 & U4) i nx. unfold usable. cbn [g_pk g_ro]. destruct RI as (R1 & _ & _ & R4 & R5 & _). repeat (split; [assumption || lia|]).
    rewrite BE. destruct BK as (e & ->). discriminate. }
  destruct (Stats_Model.flush_while _ _ _ _ _ _) as [k1|k1|]; [| |exact W].
  2: { destruct W as (W1 & W2 & W3 & W4). right. split; [reflexivity|]. split; [apply US; [exact W2|now apply emptied_usable]|]. split; [exact IR|].
       destruct (Z.lt_ge_cases (r_seq r) lo) as [X|X]; [now left|]. right. left. specialize (W3 (r_seq r) ltac:(lia)). unfold mq in W3.
       destruct (is_lost r); [lia|]. split; [reflexivity|lia]. }
  destruct W as (lo1 & W1 & W2 & W3 & W4 & W5 & W6 & W7 & W8 & W9 & W10).
  pose proof (get_fwd first last R lo1 _ _ k1 (r_seq r) F0 W3 W4 ltac:(lia)) as G.
  destruct (Z.ltb_spec (r_seq r) lo1) as [X|X].
  { rewrite G. right. split; [reflexivity|]. split; [apply US; [exact W6|exact (fwd_usable _ _ _ _ _ F0 W3)]|]. split; [exact IR|].
    destruct (Z.lt_ge_cases (r_seq r) lo) as [Y|Y]; [now left|]. right. left. specialize (W9 (r_seq r) ltac:(lia)). unfold mq in W9.
    destruct (is_lost r); [lia|]. split; [reflexivity|lia]. }
  destruct G as (k2 & p & G & F2 & S2 & T2 & SM & NT & PS). rewrite G. destruct SM as (M1 & M2 & M3 & M4 & M5 & M6).
  assert (SK2: skips_ok lo1 k2) by (unfold Stats_Proofs.skips_ok in *; rewrite M2; exact W5).
  assert (BK2: exists e, p_bck k2 = mkBuf [mkPkt first (sch first) 0 false] e (first + 1)) by (rewrite M1, W6; exact BK).
  assert (JU2: justified first last (recs ++ [r]) lo1).
  { destruct (Z.eq_dec lo1 lo) as [->|NE1]; [exact JU'|]. right. split; [lia|]. exists r. split; [apply in_app_iff; right; now left|]. split; [exact IR|].
    specialize (W9 (lo1 - 1) ltac:(lia)). unfold mq in W9. destruct (is_lost r); lia. }
  rewrite PS, (skip_same lo1 (r_seq r) k2 SK2 X).
  destruct (not_sent skips (r_seq r)) eqn:NS.
  { left. split; [reflexivity|]. exists lo1. unfold Inv. rewrite relevant_snoc, NS. rewrite andb_false_r, app_nil_r. fold R.
    cbn [g_first g_last g_sent g_pk g_ro g_hist g_ttl g_sync g_start_time g_i g_begin g_next]. repeat (split; auto). congruence. }
  assert (PIN: In p (b_list (p_fwd k2))) by (eapply nth_error_In; eauto).
  assert (PO: node_ok R p). { destruct F2 as (_ & _ & _ & _ & _ & _ & _ & ND & _). rewrite Forall_forall in ND. auto. }
  destruct PO as (P1 & P2 & P3). rewrite PS in P1, P2, P3.
  assert (RS1: relevant first last skips (recs ++ [r]) = R ++ [r]) by (rewrite relevant_snoc, IR, NS; reflexivity).
  change (is_lost_rec r) with (is_lost r).
  assert (SEQ0: 0 <= r_seq r) by lia.
  pose proof (fun A B => pk_add first last R lo1 k2 p r _ _ F2 C S2 F0 IR NS NT PS A B ltac:(lia)) as ADD.
  destruct (is_lost r) eqn:LR.
  - destruct (Z.eqb_spec (k_seen p) 0) as [S0|S0]; cbn [negb].
    2: { right. split; [reflexivity|]. split; [apply US; [congruence|exact (fwd_usable _ _ _ _ _ F0 F2)]|]. split; [exact IR|]. right. right. left. split; [reflexivity|]. lia. }
    left. split; [reflexivity|]. exists lo1. destruct (ADD (fun _ => S0) ltac:(discriminate)) as (A1 & A2 & A3). clear ADD.
    unfold Inv. rewrite RS1. cbn [g_first g_last g_sent g_pk g_ro g_hist g_ttl g_sync g_start_time g_i g_begin g_next].
    unfold copies. rewrite arrived_snoc, lost_snoc, LR, app_nil_r, forallb_app, app_length. fold (copies R).
    split. { split; [reflexivity|]. split; [reflexivity|]. split; [exact JU2|]. unfold pk_inv. rewrite arrived_snoc, lost_snoc, LR, app_nil_r.
      split; [exact A1|]. split; [exact A2|]. split; [|split; [exact SK2|split; [exact BK2|unfold set_pkt; cbn [set_buf p_dups1]; congruence]]].
      rewrite distinct_snoc. destruct (in_dec Z.eq_dec (r_seq r) (map r_seq (lost R))) as [I|I].
      - apply lost_in in I. destruct (k_lost p); [exact A3|lia].
      - destruct (k_lost p) eqn:KL; [|exact A3]. destruct I. apply lost_in. lia. }
    split; [cbn [length]; lia|]. split; [exact RI|]. split; [exact HO|]. split; [exact HI|]. split; [exact TL|]. split; [exact TT|]. split.
    { unfold synced at 2. cbn [forallb]. rewrite LR, SY. destruct (sync (r_recv r) =? 0); cbn [negb orb andb]; rewrite ?andb_false_r, ?andb_true_r; reflexivity. }
    auto.
  - destruct (k_lost p) eqn:KL.
    { right. split; [reflexivity|]. split; [apply US; [congruence|exact (fwd_usable _ _ _ _ _ F0 F2)]|]. split; [exact IR|]. right. right. right. split; [reflexivity|]. lia. }
    left. split; [reflexivity|]. exists lo1. destruct (ADD ltac:(discriminate) (fun _ => eq_refl)) as (A1 & A2 & A3). clear ADD.
    assert (IN: In (r_seq r) (map r_seq (arrived R)) <-> k_seen p <> 0) by (rewrite <- received_in; lia).
    unfold Inv. rewrite RS1. cbn [g_first g_last g_sent g_pk g_ro g_hist g_ttl g_sync g_start_time g_i g_begin g_next].
    unfold copies. rewrite arrived_snoc, lost_snoc, LR, app_nil_r, forallb_app, first_copies_snoc. cbn [app]. fold (copies R).
    split. { split; [reflexivity|]. split; [reflexivity|]. split; [exact JU2|]. unfold pk_inv. rewrite arrived_snoc, lost_snoc, LR, app_nil_r.
      split; [exact A1|]. split; [exact A2|]. split; [|split; [exact SK2|split; [exact BK2|unfold set_pkt; cbn [set_buf p_dups1]; congruence]]].
      rewrite distinct_snoc, app_length. cbn [length]. destruct (in_dec Z.eq_dec (r_seq r) (map r_seq (arrived R))) as [I|I];
        destruct (Z.eqb_spec (k_seen p) 0) as [S0|S0]; try tauto; destruct A3 as (A3 & A4); split; try exact A4; lia. }
    split. { rewrite distinct_snoc. destruct (in_dec Z.eq_dec (r_seq r) (map r_seq (arrived R))) as [I|I];
        destruct (Z.eqb_spec (k_seen p) 0) as [S0|S0]; try tauto; cbn [negb]; lia. }
    split. { rewrite map_app, rev_app_distr. cbn [map rev app]. apply reorder_ring; assumption. }
    split. { destruct (negb (k_seen p =? 0)); [|apply increment_ok]; exact HO. }
    split. { intros b. destruct (in_dec Z.eq_dec (r_seq r) (map r_seq (arrived R))) as [I|I];
        destruct (Z.eqb_spec (k_seen p) 0) as [S0|S0]; try tauto; cbn [negb].
        - rewrite app_nil_r. apply HI.
        - rewrite samples_increment, HI, count_snoc. reflexivity. }
    split. { destruct (negb (k_seen p =? 0)); [|rewrite upd_length]; exact TL. }
    split. { intros t T. destruct (in_dec Z.eq_dec (r_seq r) (map r_seq (arrived R))) as [I|I];
        destruct (Z.eqb_spec (k_seen p) 0) as [S0|S0]; try tauto; cbn [negb].
        - rewrite app_nil_r. apply TT. exact T.
        - rewrite upd_nth, TL, count_snoc. destruct (Z.eqb_spec (r_ttl r) t) as [<-|NEt].
          + rewrite Nat.eqb_refl. replace (Z.to_nat (r_ttl r) <? 256)%nat with true by lia. cbn [andb]. rewrite TT by lia. reflexivity.
          + replace (Z.to_nat t =? Z.to_nat (r_ttl r))%nat with false by lia. cbn [andb]. rewrite TT by lia. lia. }
    split.
    { unfold synced at 2. cbn [forallb]. rewrite LR, SY. destruct (sync (r_recv r) =? 0), (sync (r_send r) =? 0); cbn [negb orb andb]; rewrite ?andb_false_r, ?andb_true_r; reflexivity. }
    auto.
Qed.
End Iter.
