(** One record of a two-way session. *)
From Coq Require Import ZArith List Bool Lia ZifyBool ZifyNat Arith.
From Verif Require Import Base BaseLemmas Arith_Model Time_Model Wire_Model Wire_Spec File_Model File_Spec Sender_Spec Receiver_Spec Stats_Model Stats_Spec Stats_Proofs Stats_Iter
  StatsTW_Model StatsTW_Spec StatsTW_Proofs StatsTW_Inv.
Import ListNotations.
Open Scope Z_scope.
Ltac Zify.zify_post_hook ::= Z.div_mod_to_equations.

Lemma losses_in : forall q R, 0 < losses q R <-> In q (map packet (unanswered R)).
Proof.
  intros q R. unfold losses. rewrite tw_count_in, in_map_iff. unfold unanswered. split.
  - intros (r & I & E). apply andb_true_iff in E. destruct E as (E1 & E2). exists r. rewrite filter_In. split; [lia|auto].
  - intros (r & E & I). apply filter_In in I. exists r. split; [tauto|]. destruct I as (_ & ->). cbn [andb]. lia.
Qed.
Lemma losses_snoc : forall q R r, losses q (R ++ [r]) = losses q R + (if no_reply r && (packet r =? q) then 1 else 0).
Proof. intros. apply tw_count_snoc. Qed.
Lemma losses_pos : forall q R, 0 <= losses q R.
Proof. intros. apply tw_count_pos. Qed.
Lemma numbers_nil : forall q A, numbers q A = [] <-> ~ In q (map packet A).
Proof.
  intros q A. rewrite in_map_iff. split.
  - intros E (r & P & I). assert (X: In (reply r) (numbers q A)) by (apply numbers_in; eauto). now rewrite E in X.
  - intros N. destruct (numbers q A) as [|x l] eqn:E; [reflexivity|]. assert (I: In x (numbers q A)) by (rewrite E; now left).
    apply numbers_in in I. destruct I as (r & I & P & _). destruct N. eauto.
Qed.
Lemma replied_in : forall x A, 0 < tw_count (fun r => reply r =? x) A <-> In x (map reply A).
Proof.
  intros x A. rewrite tw_count_in, in_map_iff. split; [intros (r & I & E)|intros (r & E & I)]; exists r; (split; [lia || exact I|lia || exact I]).
Qed.
Lemma range_snoc : forall first last recs r, tw_range first last (recs ++ [r]) = tw_range first last recs ++ (if (first <=? packet r) && (packet r <? last) then [r] else []).
Proof. intros. unfold tw_range. now rewrite filter_snoc. Qed.

Section Iter.
Context {start timeout npackets rec_size : Z} {delta : nat -> Z} {bucket : timestamp -> timestamp -> Z} {negative : timestamp -> timestamp -> bool} {bucket_rt : twrec -> Z}.
Notation sch := (sched_stamp start delta).
Notation titerate := (titerate timeout rec_size delta bucket negative bucket_rt).
Notation Fw := (@Fw start delta).
Notation fnode := (@fnode start delta).

Lemma lost_update : forall first last R lo lob d n e k seq p r, Fw first last R lo k -> Bk first R lob k -> fsums d n k -> bsums e k -> sane R ->
  no_reply r = true -> packet r = seq -> lo <= seq < lo + flen k -> nth_error (tb_list (q_fwd k)) (Z.to_nat (seq - lo)) = Some p -> n_seq p = seq -> n_seen p = 0 ->
  let k' := tset_pkt false seq (mkTP (n_seq p) (n_time p) (n_seen p) true (n_assoc p)) k in
  Fw first last (R ++ [r]) lo k' /\ Bk first (R ++ [r]) lob k' /\ fsums d (n + (packets (unanswered (R ++ [r])) - packets (unanswered R))) k' /\ bsums e k' /\ sane (R ++ [r]).
Proof.
  intros first last R lo lob d n e k seq p r (NE & RN & L0 & L1 & IC & GE & EN & ND & AB & ST) (NB & RB & LB0 & ICB & NDB & ABB) (U1 & U2) UB (SA & OW) LR PK SQ NT PS SE.
  set (p' := mkTP _ _ _ _ _). cbn zeta. set (k' := tset_pkt _ _ _ _).
  assert (LI: tb_list (q_fwd k') = tat seq p' (tb_list (q_fwd k))) by reflexivity.
  assert (FL: flen k' = flen k) by (unfold flen; rewrite LI, tat_length; reflexivity).
  assert (RE: replies (R ++ [r]) = replies R) by (rewrite replies_snoc, LR; apply app_nil_r).
  pose proof (proj1 (Forall_forall _ _) ND p (nth_error_In _ _ NT)) as (P1 & P2 & P3 & P4 & P5). rewrite PS in *.
  assert (NN: numbers seq (replies R) = []) by (apply different_zero; lia).
  destruct (tat_sums seq p' _ lo _ p RN NT PS) as (T1 & T2).
  split; [|split; [|split; [|split]]].
  - unfold StatsTW_Inv.Fw. rewrite FL, LI, RE. split. { intros E. apply (f_equal (@length _)) in E. rewrite tat_length in E. destruct (tb_list (q_fwd k)); [now destruct NE|discriminate]. }
    split; [apply tat_run; [unfold p'; cbn [n_seq]; exact PS|exact RN]|]. split; [exact L0|]. split; [exact L1|]. split; [exact IC|]. split; [exact GE|]. split; [exact EN|].
    split; [|split; [|exact ST]].
    + rewrite Forall_forall in *. intros x I. destruct (tat_in _ _ _ _ I) as [(-> & _)|(J & NS)].
      * unfold StatsTW_Inv.fnode, p'. cbn [n_seq n_time n_seen n_lost n_assoc]. rewrite RE, PS. split; [exact P1|]. split; [exact P2|]. split; [|split; [exact P4|exact P5]].
        rewrite losses_snoc, LR, PK, Z.eqb_refl. cbn [andb]. pose proof (losses_pos seq R). lia.
      * destruct (ND x J) as (Q1 & Q2 & Q3 & Q4 & Q5). unfold StatsTW_Inv.fnode. rewrite RE, losses_snoc, LR, PK. replace (seq =? n_seq x) with false by lia.
        cbn [andb]. rewrite Z.add_0_r. auto.
    + intros x I. apply in_app_iff in I. destruct I as [I|[<-|[]]]; [auto|lia].
  - unfold Bk. rewrite RE. change (blen k') with (blen k). change (tb_list (q_bck k')) with (tb_list (q_bck k)). change (tb_isctx (q_bck k')) with (tb_isctx (q_bck k)).
    do 4 (split; [assumption|]). split; [|exact ABB]. revert NDB. apply Forall_impl. intros x. unfold bnode. now rewrite RE.
  - unfold fsums. rewrite LI, T1, T2. unfold p'. cbn [n_seen n_lost]. change (q_dups0 k') with (q_dups0 k). change (q_lost k') with (q_lost k).
    split; [lia|]. rewrite unanswered_snoc, LR, packets_snoc, PK. rewrite P3. pose proof (losses_in seq R) as LI2.
    destruct (in_dec Z.eq_dec seq (map packet (unanswered R))) as [I|I]; destruct (Z.ltb_spec 0 (losses seq R)); first [lia|apply LI2 in I; lia|destruct I; apply LI2; lia].
  - exact UB.
  - unfold sane, own_numbers. rewrite RE. split; [|exact OW]. intros q. rewrite losses_snoc, LR, PK. cbn [andb].
    destruct (Z.eqb_spec seq q) as [<-|NQ]; [now right|]. rewrite Z.add_0_r. apply SA.
Qed.

(** what a reply changes in the two nodes *)
Lemma answer_update : forall first last R lo lob d n e k seq rseq p b r, Fw first last R lo k -> Bk first R lob k -> fsums d n k -> bsums e k -> sane R ->
  no_reply r = false -> packet r = seq -> reply r = rseq -> lo <= seq < lo + flen k -> nth_error (tb_list (q_fwd k)) (Z.to_nat (seq - lo)) = Some p -> n_seq p = seq -> n_lost p = false ->
  lob <= rseq < lob + blen k -> nth_error (tb_list (q_bck k)) (Z.to_nat (rseq - lob)) = Some b -> n_seq b = rseq -> negb (n_seen b =? 0) && negb (n_assoc b =? seq) = false ->
  let b' := mkTP (n_seq b) (n_time b) (n_seen b + 1) (n_lost b) seq in
  let p' := if n_seen p =? 0 then mkTP (n_seq p) (n_time p) 1 (n_lost p) rseq else
            if negb (n_assoc p =? rseq) && (n_seen b' =? 1) then mkTP (n_seq p) (n_time p) (n_seen p + 1) (n_lost p) (n_assoc p) else p in
  let k' := tset_pkt false seq p' (tset_pkt true rseq b' k) in
  let A := replies R in
  let A' := replies (R ++ [r]) in
  A' = A ++ [r] /\
  Fw first last (R ++ [r]) lo k' /\ Bk first (R ++ [r]) lob k' /\
  fsums (d + (reflections A' - reflections A) - (packets A' - packets A)) n k' /\ bsums (e + 1 - (reflections A' - reflections A)) k' /\ sane (R ++ [r]) /\
  (n_seen p = 0 <-> ~ In seq (map packet A)) /\ ((1 <? n_seen p') || (1 <? n_seen b') = false <-> ~ In seq (map packet A)).
Proof.
  intros first last R lo lob d n e k seq rseq p b r (NE & RN & L0 & L1 & IC & GE & EN & ND & AB & ST) (NB & RB & LB0 & ICB & NDB & ABB) (U1 & U2) UB (SA & OW) LR PK RP SQ NT PS LO RQ NTB BS CH.
  intros b' p' k' A A'.
  assert (RE: A' = A ++ [r]) by (unfold A', A; rewrite replies_snoc, LR; reflexivity). split; [exact RE|].
  assert (LI: tb_list (q_fwd k') = tat seq p' (tb_list (q_fwd k))) by reflexivity.
  assert (LIB: tb_list (q_bck k') = tat rseq b' (tb_list (q_bck k))) by reflexivity.
  assert (FL: flen k' = flen k) by (unfold flen; rewrite LI, tat_length; reflexivity).
  assert (BL: blen k' = blen k) by (unfold blen; rewrite LIB, tat_length; reflexivity).
  pose proof (proj1 (Forall_forall _ _) ND p (nth_error_In _ _ NT)) as (P1 & P2 & P3 & P4 & P5).
  pose proof (proj1 (Forall_forall _ _) NDB b (nth_error_In _ _ NTB)) as (B1 & B2 & B3). rewrite PS in P1, P2, P3, P4, P5. rewrite BS in B1, B3. fold A in P2, P4, P5, B1, B3.
  assert (BP: 0 <= n_seen b) by (rewrite B1; apply tw_count_pos).
  assert (PP: 0 <= n_seen p) by (rewrite P2; apply different_pos).
  (* a number already used was used for this packet *)
  assert (OWN: forall x, In x A -> reply x = rseq -> packet x = seq).
  { intros x I E. assert (X: 0 < n_seen b). { rewrite B1. apply replied_in. apply in_map_iff. eauto. } rewrite (B3 x I E). lia. }
  assert (NEW0: n_seen p = 0 <-> ~ In seq (map packet A)) by (rewrite P2, different_zero; apply numbers_nil).
  assert (NEWB: n_seen b = 0 <-> ~ In rseq (map reply A)).
  { rewrite <- replied_in, B1. pose proof (tw_count_pos (fun r => reply r =? rseq) A). lia. }
  assert (BN: 0 < n_seen b -> In rseq (numbers seq A)).
  { intros X. rewrite B1 in X. apply replied_in, in_map_iff in X. destruct X as (x & E & I). apply numbers_in. exists x. auto. }
  assert (NB2: In rseq (numbers seq A) -> 0 < n_seen b).
  { intros I. apply numbers_in in I. destruct I as (x & I & _ & E). rewrite B1. apply replied_in, in_map_iff. eauto. }
  assert (P0B: n_seen p = 0 -> n_seen b = 0).
  { intros E. destruct (Z.eq_dec (n_seen b) 0) as [Z0|Z0]; [exact Z0|]. pose proof (BN ltac:(lia)) as X. apply NEW0 in E. apply numbers_nil in E. now rewrite E in X. }
  assert (N1: numbers seq A' = numbers seq A ++ [rseq]) by (rewrite RE, numbers_snoc, PK, Z.eqb_refl, RP; reflexivity).
  assert (D1: different (numbers seq A') = n_seen p + (if n_seen b =? 0 then 1 else 0)).
  { rewrite N1, different_snoc, <- P2. destruct (in_dec Z.eq_dec rseq (numbers seq A)) as [I|I].
    - specialize (NB2 I). replace (n_seen b =? 0) with false by lia. reflexivity.
    - destruct (Z.eqb_spec (n_seen b) 0) as [Z0|Z0]; [reflexivity|]. destruct I. apply BN. lia. }
  assert (AB1: n_seen b = 0 -> 0 < n_seen p -> n_assoc p <> rseq).
  { intros Z0 P0 E. specialize (P5 P0). rewrite E in P5. specialize (NB2 P5). lia. }
  assert (PF: n_seq p' = seq /\ n_time p' = n_time p /\ n_lost p' = false /\ n_seen p' = n_seen p + (if n_seen b =? 0 then 1 else 0) /\
     n_assoc p' = (if n_seen p =? 0 then rseq else n_assoc p)).
  { unfold p', b'. cbn [n_seen]. destruct (Z.eqb_spec (n_seen p) 0) as [Z0|Z0]; cbn [n_seq n_time n_lost n_seen n_assoc].
    - rewrite (P0B Z0), Z0. cbn [Z.eqb]. auto.
    - destruct (Z.eqb_spec (n_seen b) 0) as [ZB|ZB].
      + specialize (AB1 ZB ltac:(lia)). replace (n_assoc p =? rseq) with false by lia. rewrite ZB. cbn [negb andb Z.add Z.eqb Pos.eqb n_seq n_time n_lost n_seen n_assoc]. auto.
      + replace (n_seen b + 1 =? 1) with false by lia. rewrite andb_false_r. rewrite Z.add_0_r. auto. }
  clearbody p'. destruct PF as (F1 & F2 & F3 & F4 & F5).
  destruct (tat_sums seq p' _ lo _ p RN NT PS) as (T1 & T2). destruct (tat_sums rseq b' _ lob _ b RB NTB BS) as (T3 & T4).
  assert (PKS: packets A' - packets A = if n_seen p =? 0 then 1 else 0).
  { rewrite RE, packets_snoc, PK. destruct (in_dec Z.eq_dec seq (map packet A)) as [I|I]; destruct (Z.eqb_spec (n_seen p) 0); try lia; tauto. }
  assert (RFS: reflections A' - reflections A = if n_seen b =? 0 then 1 else 0).
  { rewrite RE, reflections_snoc, RP. destruct (in_dec Z.eq_dec rseq (map reply A)) as [I|I]; destruct (Z.eqb_spec (n_seen b) 0); try lia; tauto. }
  assert (LS: forall q, losses q (R ++ [r]) = losses q R) by (intros q; rewrite losses_snoc, LR; cbn [andb]; lia).
  split; [|split; [|split; [|split; [|split; [|split]]]]].
  - unfold StatsTW_Inv.Fw. rewrite FL, LI. fold A'. split. { intros E. apply (f_equal (@length _)) in E. rewrite tat_length in E. destruct (tb_list (q_fwd k)); [now destruct NE|discriminate]. }
    split; [apply tat_run; assumption|]. split; [exact L0|]. split; [exact L1|]. split; [exact IC|]. split; [exact GE|]. split; [exact EN|].
    split; [|split].
    + rewrite Forall_forall in *. intros x I. destruct (tat_in _ _ _ _ I) as [(-> & _)|(J & NS)].
      * unfold StatsTW_Inv.fnode. fold A'. rewrite F1, F2, F3, F4, F5, LS, D1. split; [exact P1|]. split; [reflexivity|]. split; [congruence|]. split.
        -- destruct (Z.eqb_spec (n_seen p) 0); [right; exists r; split; [rewrite RE; apply in_app_iff; right; now left|]; lia|]. rewrite RE. now apply assoc_app.
        -- intros _. rewrite N1. apply in_app_iff. destruct (Z.eqb_spec (n_seen p) 0); [right; now left|]. left. apply P5. lia.
      * destruct (ND x J) as (Q1 & Q2 & Q3 & Q4 & Q5). unfold StatsTW_Inv.fnode. fold A'. rewrite LS. rewrite RE. rewrite numbers_snoc, PK.
        replace (seq =? n_seq x) with false by lia. rewrite app_nil_r. split; [exact Q1|]. split; [exact Q2|]. split; [exact Q3|]. split; [now apply assoc_app|exact Q5].
    + intros x I. apply in_app_iff in I. destruct I as [I|[<-|[]]]; [auto|lia].
    + intros a I. rewrite RE. apply assoc_app, ST, I.
  - unfold Bk. rewrite BL, LIB. fold A'. split. { intros E. apply (f_equal (@length _)) in E. rewrite tat_length in E. destruct (tb_list (q_bck k)); [now destruct NB|discriminate]. }
    split; [apply tat_run; [exact BS|exact RB]|]. split; [exact LB0|]. split; [exact ICB|]. split.
    + rewrite Forall_forall in *. intros x I. destruct (tat_in _ _ _ _ I) as [(-> & _)|(J & NS)].
      * unfold bnode, b'. cbn [n_seq n_seen n_lost n_assoc]. fold A'. rewrite RE, BS. split; [rewrite tw_count_snoc, RP, Z.eqb_refl, B1; reflexivity|]. split; [exact B2|].
        intros y Y E. apply in_app_iff in Y. destruct Y as [Y|[<-|[]]]; [now apply OWN|exact PK].
      * destruct (NDB x J) as (Q1 & Q2 & Q3). unfold bnode. fold A'. rewrite RE. split; [rewrite tw_count_snoc, RP; replace (rseq =? n_seq x) with false by lia; rewrite Z.add_0_r; exact Q1|].
        split; [exact Q2|]. intros y Y E. apply in_app_iff in Y. destruct Y as [Y|[<-|[]]]; [now apply Q3|congruence].
    + intros y Y. rewrite RE in Y. apply in_app_iff in Y. destruct Y as [Y|[<-|[]]]; [now apply ABB|lia].
  - unfold fsums. rewrite LI, T1, T2, F3, LO, F4, PKS, RFS. change (q_dups0 k') with (q_dups0 k). change (q_lost k') with (q_lost k).
    split; [|lia]. destruct (Z.eqb_spec (n_seen p) 0) as [Z0|Z0]; [rewrite (P0B Z0), Z0; cbn [Z.eqb]; lia|]. destruct (n_seen b =? 0); lia.
  - unfold bsums in *. rewrite LIB, T3, RFS. unfold b'. cbn [n_seen]. change (q_dups1 k') with (q_dups1 k). destruct (Z.eqb_spec (n_seen b) 0); lia.
  - unfold sane, own_numbers. fold A'. split.
    + intros q. rewrite LS. rewrite RE, numbers_snoc, PK. destruct (Z.eqb_spec seq q) as [<-|NQ]; [|rewrite app_nil_r; apply SA].
      left. pose proof (losses_pos seq R) as LP. rewrite LO in P3. symmetry in P3. apply Z.ltb_ge in P3. clear - P3 LP. lia.
    + rewrite RE. intros x y X Y E. apply in_app_iff in X, Y. destruct X as [X|[<-|[]]]; destruct Y as [Y|[<-|[]]].
      * now apply OW.
      * rewrite PK. apply OWN; [exact X|congruence].
      * rewrite PK. symmetry. apply OWN; [exact Y|congruence].
      * reflexivity.
  - exact NEW0.
  - rewrite <- NEW0, F4. unfold b'. cbn [n_seen]. split; intros H.
    + destruct (Z.eqb_spec (n_seen b) 0); lia.
    + rewrite (P0B H), H. reflexivity.
Qed.

Definition tthresh (r : twrec) : Z := OWPNum64Sub (owptime (r_send (tw_sent r))) timeout.
Definition tjust (first last : Z) (recs : list twrec) (lo : Z) : Prop :=
  lo = first \/ (first < lo < last /\ exists r, In r (tw_range first last recs) /\ if no_reply r then lo <= packet r else sch (lo - 1) < tthresh r).
Definition tdelays (f : twrec -> Z) (R : list twrec) (h : list (Z * Z)) : Prop :=
  hist_ok h /\ forall b, samples h b = tw_count (fun r => f r =? b) (firsts [] (replies R)).
Definition tttls (f : twrec -> Z) (R : list twrec) (h : list Z) : Prop :=
  length h = 256%nat /\ forall t, 0 <= t < 256 -> nth (Z.to_nat t) h 0 = tw_count (fun r => f r =? t) (firsts [] (replies R)).
Definition neg_delay (r : twrec) : bool := negative (r_send (tw_sent r)) (r_recv (tw_sent r)) || negative (r_send (tw_refl r)) (r_recv (tw_refl r)).
Definition lost_synced (r : twrec) : bool := negb (no_reply r) || negb (sync (r_recv (tw_sent r)) =? 0).
Definition fwd_bucket (r : twrec) : Z := bucket (r_send (tw_sent r)) (r_recv (tw_sent r)).
Definition bck_bucket (r : twrec) : Z := bucket (r_send (tw_refl r)) (r_recv (tw_refl r)).
(** the figures that do not wait for packets to be flushed *)
Definition tfigs (first last begin : Z) (recs : list twrec) (g : tstats) : Prop :=
  let R := tw_range first last recs in
  h_first g = first /\ h_last g = last /\ h_sent g = packets (replies R) + Z.of_nat (length (unanswered R)) /\
  tdelays bucket_rt R (h_rt g) /\ tdelays fwd_bucket R (h_fwd g) /\ tdelays bck_bucket R (h_bck g) /\
  tttls (fun r => r_ttl (tw_sent r)) R (h_ttl0 g) /\ tttls (fun r => r_ttl (tw_refl r)) R (h_ttl1 g) /\
  h_sync g = forallb lost_synced R /\ h_offset g = existsb neg_delay (replies R) /\ h_start_time g = sch first /\
  h_i g = Z.of_nat (length recs) /\ h_begin g = begin /\
  h_next g = match first_from last (map tw_sent recs) with Some i => begin + Z.of_nat i * rec_size | None => 0 end.
Definition tbufs (first last : Z) (recs : list twrec) (lo lob : Z) (k : tpk) : Prop :=
  let R := tw_range first last recs in
  tjust first last recs lo /\ (lob = first \/ exists s, In s (replies R) /\ packet s <= lo /\ reply s = lob) /\
  Fw first last R lo k /\ Bk first R lob k /\
  fsums (reflections (replies R) - packets (replies R)) (packets (unanswered R)) k /\ bsums (Z.of_nat (length (replies R)) - reflections (replies R)) k /\ sane R /\
  (forall r, In r (replies R) -> first <= reply r < 2^32) /\ lob + blen k <= 2^32.
Definition TInv (first last begin : Z) (recs : list twrec) (g : tstats) : Prop :=
  exists lo lob, tbufs first last recs lo lob (h_pk g) /\ tfigs first last begin recs g.
(** what can be wrong with record [r] after the records [done] *)
Definition tmisfit (first last : Z) (done : list twrec) (r : twrec) : Prop :=
  let R := tw_range first last done in
  first <= packet r < last /\
  ((exists lo, tjust first last (done ++ [r]) lo /\ packet r < lo) \/ (no_reply r = false /\ sch (packet r) < tthresh r) \/
   (no_reply r = true /\ In (packet r) (map packet (replies R))) \/ (no_reply r = false /\ In (packet r) (map packet (unanswered R))) \/
   (no_reply r = false /\ (reply r < first \/ exists s, In s (replies R) /\ packet s <= packet r /\ reply r < reply s)) \/
   (no_reply r = false /\ exists s, In s (replies R) /\ reply s = reply r /\ packet s <> packet r)).

Lemma tdelays_keep : forall f R R' h, tdelays f R h -> firsts [] (replies R') = firsts [] (replies R) -> tdelays f R' h.
Proof. intros f R R' h (A & B) E. split; [exact A|]. intros b. now rewrite E. Qed.
Lemma tdelays_more : forall f R R' h r, tdelays f R h -> firsts [] (replies R') = firsts [] (replies R) ++ [r] -> tdelays f R' (increment (f r) h).
Proof. intros f R R' h r (A & B) E. split; [now apply increment_ok|]. intros b. rewrite E, samples_increment, tw_count_snoc, B. reflexivity. Qed.
Lemma tttls_keep : forall f R R' h, tttls f R h -> firsts [] (replies R') = firsts [] (replies R) -> tttls f R' h.
Proof. intros f R R' h (A & B) E. split; [exact A|]. intros t T. rewrite E. auto. Qed.
Lemma tttls_more : forall f R R' h r, 0 <= f r < 256 -> tttls f R h -> firsts [] (replies R') = firsts [] (replies R) ++ [r] -> tttls f R' (bump (f r) h).
Proof.
  intros f R R' h r F (A & B) E. unfold bump. split; [rewrite upd_length; exact A|]. intros t T. rewrite upd_nth, E, tw_count_snoc, A.
  destruct (Z.eqb_spec (f r) t) as [<-|N].
  - rewrite Nat.eqb_refl. replace (Z.to_nat (f r) <? 256)%nat with true by lia. cbn [andb]. rewrite B by exact F. reflexivity.
  - replace (Z.to_nat t =? Z.to_nat (f r))%nat with false by lia. cbn [andb]. rewrite B by exact T. lia.
Qed.

Lemma tjust_snoc : forall first last recs r lo, tjust first last recs lo -> tjust first last (recs ++ [r]) lo.
Proof.
  intros first last recs r lo [->|(B & x & I & H)]; [now left|]. right. split; [exact B|]. exists x. split; [|exact H]. rewrite range_snoc. apply in_app_iff. now left.
Qed.
Lemma next_tsnoc : forall last begin recs r g, 0 < begin -> 0 <= rec_size -> h_i g = Z.of_nat (length recs) -> h_begin g = begin ->
  h_next g = match first_from last (map tw_sent recs) with Some i => begin + Z.of_nat i * rec_size | None => 0 end -> h_last g = last ->
  (if (h_next g =? 0) && (h_last g <=? packet r) then h_begin g + h_i g * rec_size else h_next g) =
  match first_from last (map tw_sent (recs ++ [r])) with Some i => begin + Z.of_nat i * rec_size | None => 0 end.
Proof.
  intros last begin recs r g B RS GI GB GN GL. rewrite map_app. cbn [map]. rewrite first_from_snoc, map_length, GN, GI, GB, GL. fold (packet r).
  destruct (first_from last (map tw_sent recs)) as [i|].
  - replace (begin + Z.of_nat i * rec_size =? 0) with false by nia. reflexivity.
  - rewrite Z.eqb_refl. cbn [andb]. destruct (last <=? packet r); reflexivity.
Qed.

Lemma titerate_inv : forall first last begin recs g r, 0 <= first < 2^32 - 1 -> last < 2^32 -> 0 < begin -> 0 <= rec_size ->
  0 <= r_ttl (tw_sent r) < 256 -> 0 <= r_ttl (tw_refl r) < 256 -> 0 <= reply r < 2^32 -> TInv first last begin recs g ->
  match titerate r g with
  | TRet rc g' => (rc = 0 /\ TInv first last begin (recs ++ [r]) g') \/ (rc = -1 /\ tmisfit first last recs r)
  | TSCrash => False
  end.
Proof.
  intros first last begin recs g r F0 LB B0 RS T0 T1 RB (lo & lob & (JU & JB & F & B & FS & BS & SA & RR & TB) & FG).
  pose proof FG as (GF & GL & SE & D0 & D1 & D2 & TT0 & TT1 & SY & OF & ST & GI & GB & GN).
  pose proof (next_tsnoc last begin recs r g B0 RS GI GB GN GL) as NX.
  unfold StatsTW_Model.titerate. cbv zeta. rewrite GF, GL in *. change (r_seq (tw_sent r)) with (packet r). change (r_seq (tw_refl r)) with (reply r). change (tis_lost r) with (no_reply r).
  destruct ((packet r <? first) || (last <=? packet r)) eqn:IR.
  { left. split; [reflexivity|]. exists lo, lob. cbn [h_pk].
    assert (E: tw_range first last (recs ++ [r]) = tw_range first last recs).
    { rewrite range_snoc. replace ((first <=? packet r) && (packet r <? last)) with false by lia. apply app_nil_r. }
    unfold tbufs, tfigs. rewrite E. cbn [h_first h_last h_sent h_rt h_fwd h_bck h_ttl0 h_ttl1 h_sync h_offset h_start_time h_i h_begin h_next].
    split. { split; [now apply tjust_snoc|]. auto 10. }
    rewrite NX, app_length. cbn [length]. repeat (split; [first [assumption|reflexivity|lia]|]). reflexivity. }
  assert (IN: first <= packet r < last) by lia.
  assert (RS1: tw_range first last (recs ++ [r]) = tw_range first last recs ++ [r]).
  { rewrite range_snoc. replace ((first <=? packet r) && (packet r <? last)) with true by lia. reflexivity. }
  assert (INR: In r (tw_range first last (recs ++ [r]))) by (rewrite RS1; apply in_app_iff; right; now left).
  set (R := tw_range first last recs) in *.
  change (OWPNum64Sub (owptime (r_send (tw_sent r))) timeout) with (tthresh r).
  set (more := fun n => if no_reply r then n_seq n <? packet r else n_time n <? tthresh r).
  set (mq := fun q => if no_reply r then q <? packet r else sch q <? tthresh r).
  assert (LO: first <= lo) by (destruct F as (_ & _ & X & _); exact X).
  pose proof (while_f (fuel_for first last) more mq first last R lo _ _ (h_pk g) F0 LB F SA FS) as W.
  destruct (StatsTW_Model.tflush_while delta (fuel_for first last) false more first last (h_pk g)) as [k1|k1|].
  3: { apply W; [|unfold fuel_for; lia]. intros p (P1 & _). unfold more, mq. rewrite P1. reflexivity. }
  2: { right. split; [reflexivity|]. split; [exact IN|].
       assert (X: forall q, lo <= q < last -> mq q = true). { apply W; [|unfold fuel_for; lia]. intros p (P1 & _). unfold more, mq. rewrite P1. reflexivity. }
       destruct (Z.lt_ge_cases (packet r) lo) as [LT|GE]; [left; exists lo; split; [now apply tjust_snoc|exact LT]|].
       specialize (X (packet r) ltac:(lia)). unfold mq in X. destruct (no_reply r) eqn:NR; [lia|]. right. left. split; [reflexivity|lia]. }
  destruct W as (lo1 & W1 & W2 & F1 & FS1 & QB & QD & MF & MT); [|unfold fuel_for; lia|].
  { intros p (P1 & _). unfold more, mq. rewrite P1. reflexivity. }
  assert (JU1: tjust first last (recs ++ [r]) lo1).
  { destruct (Z.eq_dec lo1 lo) as [->|N]; [now apply tjust_snoc|]. right. split; [lia|]. exists r. split; [exact INR|].
    specialize (MT (lo1 - 1) ltac:(lia)). unfold mq in MT. destruct (no_reply r); lia. }
  assert (B1: Bk first R lob k1). { unfold Bk, blen in *. rewrite QB. exact B. }
  assert (BS1: bsums (Z.of_nat (length (replies R)) - reflections (replies R)) k1). { unfold bsums in *. rewrite QB, QD. exact BS. }
  assert (BL1: blen k1 = blen (h_pk g)) by (unfold blen; now rewrite QB).
  destruct (sync_b first last R lo1 lob _ _ _ k1 ltac:(lia) F1 FS1 B1 BS1) as (k2 & lob2 & SYN & F2 & FS2 & B2 & BS2 & JB2 & TB2). rewrite SYN.
  assert (JB1: lob2 = first \/ exists s, In s (replies R) /\ packet s <= lo1 /\ reply s = lob2).
  { destruct JB2 as [->|(LT & AS)].
    - destruct JB as [->|(s & I & P & E)]; [now left|]. right. exists s. split; [exact I|]. split; [lia|exact E].
    - destruct AS as [Z0|(s & I & P & E)]; [destruct B as (_ & _ & X & _); lia|]. right. exists s. auto. }
  clear JB2 SYN. pose proof (get_f first last R lo1 _ _ k2 (packet r) ltac:(lia) F2 FS2 IN) as G.
  destruct (Z.ltb_spec (packet r) lo1) as [LT|GE].
  { rewrite G. right. split; [reflexivity|]. split; [exact IN|]. left. exists lo1. auto. }
  destruct G as (k3 & n & G & F3 & FS3 & QB3 & QD3 & _ & LT3 & _ & NT & NS & _). rewrite G. clear G.
  assert (B3: Bk first R lob2 k3). { unfold Bk, blen in *. rewrite QB3. exact B2. }
  assert (BS3: bsums (Z.of_nat (length (replies R)) - reflections (replies R)) k3). { unfold bsums in *. rewrite QB3, QD3. exact BS2. }
  assert (BL3: blen k3 = blen k2) by (unfold blen; now rewrite QB3).
  pose proof F3 as (_ & _ & _ & _ & _ & _ & _ & ND3 & _). pose proof (proj1 (Forall_forall _ _) ND3 n (nth_error_In _ _ NT)) as (N1 & N2 & N3 & _ & _). rewrite NS in N2, N3.
  destruct (no_reply r) eqn:NR.
  - destruct (Z.eqb_spec (n_seen n) 0) as [Z0|Z0]; cbn [negb].
    2: { right. split; [reflexivity|]. split; [exact IN|]. right. right. left. split; [exact NR|].
         destruct (in_dec Z.eq_dec (packet r) (map packet (replies R))) as [I|I]; [exact I|]. apply numbers_nil in I. rewrite I in N2. destruct (Z0 N2). }
    left. split; [reflexivity|]. exists lo1, lob2. cbn [h_pk].
    destruct (lost_update first last R lo1 lob2 _ _ _ k3 (packet r) n r F3 B3 FS3 BS3 SA NR eq_refl ltac:(lia) NT NS Z0) as (U1 & U2 & U3 & U4 & U5).
    assert (RE: replies (R ++ [r]) = replies R) by (rewrite replies_snoc, NR; apply app_nil_r).
    unfold tbufs, tfigs. rewrite RS1. cbn [h_first h_last h_sent h_rt h_fwd h_bck h_ttl0 h_ttl1 h_sync h_offset h_start_time h_i h_begin h_next].
    split.
    { split; [exact JU1|]. rewrite RE. split; [exact JB1|]. split; [exact U1|]. split; [exact U2|]. split; [replace (packets (unanswered (R ++ [r]))) with (packets (unanswered R) + (packets (unanswered (R ++ [r])) - packets (unanswered R))) by lia; exact U3|].
      split; [exact U4|]. split; [exact U5|]. split; [exact RR|]. match goal with |- context[blen ?k] => change (blen k) with (blen k3) end. lia. }
    rewrite NX, app_length, RE. cbn [length]. split; [reflexivity|]. split; [reflexivity|].
    split. { rewrite unanswered_snoc, NR, app_length. cbn [length]. lia. }
    split; [eapply tdelays_keep; [eassumption|now rewrite RE]|]. split; [eapply tdelays_keep; [eassumption|now rewrite RE]|]. split; [eapply tdelays_keep; [eassumption|now rewrite RE]|].
    split; [eapply tttls_keep; [eassumption|now rewrite RE]|]. split; [eapply tttls_keep; [eassumption|now rewrite RE]|].
    split. { rewrite forallb_app, <- SY. cbn [forallb]. unfold lost_synced at 1. rewrite NR. cbn [negb orb]. destruct (sync (r_recv (tw_sent r)) =? 0); cbn [negb]; rewrite ?andb_false_r, ?andb_true_r; reflexivity. }
    split; [exact OF|]. split; [exact ST|]. split; [lia|]. split; [exact GB|]. reflexivity.
  - destruct (n_lost n) eqn:NL.
    { right. split; [reflexivity|]. split; [exact IN|]. right. right. right. left. split; [exact NR|]. apply losses_in. apply Z.ltb_lt. change ((0 <? losses (packet r) R) = true). now rewrite <- N3. }
    pose proof (get_b (start := start) (delta := delta) first last R lob2 _ k3 (reply r) B3 BS3) as G.
    destruct (Z.ltb_spec (reply r) lob2) as [LT|GEB].
    { rewrite G. right. split; [reflexivity|]. split; [exact IN|]. do 4 right. left. split; [exact NR|]. destruct JB1 as [->|(s & I & P & E)]; [now left|].
      right. exists s. split; [exact I|]. lia. }
    destruct G as (k4 & b & G & B4 & BS4 & E1 & E2 & E3 & E4 & E5 & _ & LT4 & LE4 & NTB & NSB & _). rewrite G. clear G.
    assert (F4: Fw first last R lo1 k4). { unfold StatsTW_Inv.Fw, flen in *. rewrite E1, E2, E3. exact F3. }
    assert (FS4: fsums (reflections (replies R) - packets (replies R)) (packets (unanswered R)) k4). { unfold fsums in *. rewrite E1, E4, E5. exact FS3. }
    assert (FL4: flen k4 = flen k3) by (unfold flen; now rewrite E1).
    destruct (negb (n_seen b =? 0) && negb (n_assoc b =? packet r)) eqn:CH.
    { right. split; [reflexivity|]. split; [exact IN|]. do 5 right. split; [exact NR|].
      destruct B4 as (_ & _ & _ & _ & NDB & _). pose proof (proj1 (Forall_forall _ _) NDB b (nth_error_In _ _ NTB)) as (Q1 & _ & Q3). rewrite NSB in Q1, Q3.
      assert (X: In (reply r) (map reply (replies R))). { apply replied_in. pose proof (tw_count_pos (fun x => reply x =? reply r) (replies R)). lia. }
      apply in_map_iff in X. destruct X as (s & E & I). exists s. split; [exact I|]. split; [exact E|]. rewrite (Q3 s I E). lia. }
    destruct (answer_update first last R lo1 lob2 _ _ _ k4 (packet r) (reply r) n b r F4 B4 FS4 BS4 SA NR eq_refl eq_refl ltac:(lia) ltac:(rewrite E1; exact NT) NS NL ltac:(lia) NTB NSB CH)
      as (RE & U1 & U2 & U3 & U4 & U5 & U6 & U7). cbv zeta in U1, U2, U3, U4, U7. rewrite NL in U1, U2, U3, U4, U7.
    set (b' := mkTP (n_seq b) (n_time b) (n_seen b + 1) (n_lost b) (packet r)) in *.
    set (n' := if n_seen n =? 0 then mkTP _ _ _ _ _ else _) in *. set (k5 := tset_pkt false (packet r) n' (tset_pkt true (reply r) b' k4)) in *.
    assert (BL5: blen k5 = blen k4). { unfold blen, k5. cbn [tset_pkt tset_buf tbuffer q_bck tb_list]. rewrite map_length. reflexivity. }
    assert (UN: unanswered (R ++ [r]) = unanswered R) by (rewrite unanswered_snoc, NR; apply app_nil_r).
    assert (BUFS: tbufs first last (recs ++ [r]) lo1 lob2 k5).
    { unfold tbufs. rewrite RS1, UN. split; [exact JU1|]. split.
      { rewrite RE. destruct JB1 as [X|(s & I & P & E)]; [now left|right]. exists s. split; [apply in_app_iff; now left|auto]. }
      split; [exact U1|]. split; [exact U2|].
      split. { match goal with |- fsums ?a _ _ => match type of U3 with fsums ?b _ _ => replace a with b by lia end end. exact U3. }
      split. { match goal with |- bsums ?a _ => match type of U4 with bsums ?b _ => replace a with b by (rewrite RE, app_length; cbn [length]; lia) end end. exact U4. }
      split; [exact U5|]. split; [|lia]. intros x I. rewrite RE in I. apply in_app_iff in I. destruct I as [I|[<-|[]]]; [now apply RR|]. destruct B4 as (_ & _ & X & _). lia. }
    assert (FI: firsts [] (replies (R ++ [r])) = firsts [] (replies R) ++ (if in_dec Z.eq_dec (packet r) (map packet (replies R)) then [] else [r])) by (rewrite RE; apply firsts_snoc).
    assert (PKS: packets (replies (R ++ [r])) = packets (replies R) + (if n_seen n =? 0 then 1 else 0)).
    { rewrite RE, packets_snoc. destruct (in_dec Z.eq_dec (packet r) (map packet (replies R))) as [I|I]; destruct (Z.eqb_spec (n_seen n) 0); try lia; tauto. }
    assert (SYN: forallb lost_synced (R ++ [r]) = forallb lost_synced R). { rewrite forallb_app. cbn [forallb]. unfold lost_synced at 2. rewrite NR. cbn [negb orb]. now rewrite !andb_true_r. }
    assert (OFF: existsb neg_delay (replies (R ++ [r])) = existsb neg_delay (replies R) || neg_delay r) by (rewrite RE, existsb_app; cbn [existsb]; now rewrite orb_false_r).
    destruct ((1 <? n_seen n') || (1 <? n_seen b')) eqn:REP; left; (split; [reflexivity|]); exists lo1, lob2; (split; [exact BUFS|]).
    + assert (FK: firsts [] (replies (R ++ [r])) = firsts [] (replies R)).
      { rewrite FI. destruct (in_dec Z.eq_dec (packet r) (map packet (replies R))) as [I|I]; [apply app_nil_r|]. apply U7 in I. discriminate. }
      unfold tfigs. rewrite RS1, NX. cbn [h_first h_last h_sent h_rt h_fwd h_bck h_ttl0 h_ttl1 h_sync h_offset h_start_time h_i h_begin h_next].
      split; [reflexivity|]. split; [reflexivity|]. split; [rewrite UN, PKS, SE; destruct (n_seen n =? 0); lia|].
      do 3 (split; [eapply tdelays_keep; eassumption|]). do 2 (split; [eapply tttls_keep; eassumption|]).
      split; [now rewrite SYN|]. split; [rewrite OFF, OF; unfold neg_delay at 3; now rewrite orb_assoc|]. split; [exact ST|]. split; [rewrite app_length; cbn [length]; lia|]. split; [exact GB|]. reflexivity.
    + assert (FK: firsts [] (replies (R ++ [r])) = firsts [] (replies R) ++ [r]).
      { rewrite FI. destruct (in_dec Z.eq_dec (packet r) (map packet (replies R))) as [I|I]; [|reflexivity]. destruct U7 as (U7 & _). destruct (U7 eq_refl I). }
      unfold tfigs. rewrite RS1, NX. cbn [h_first h_last h_sent h_rt h_fwd h_bck h_ttl0 h_ttl1 h_sync h_offset h_start_time h_i h_begin h_next].
      split; [reflexivity|]. split; [reflexivity|]. split; [rewrite UN, PKS, SE; destruct (n_seen n =? 0); lia|].
      split; [eapply tdelays_more; eassumption|]. split; [eapply (tdelays_more fwd_bucket); eassumption|]. split; [eapply (tdelays_more bck_bucket); eassumption|].
      split; [eapply (tttls_more (fun r => r_ttl (tw_sent r))); eassumption|]. split; [eapply (tttls_more (fun r => r_ttl (tw_refl r))); eassumption|].
      split; [now rewrite SYN|]. split; [rewrite OFF, OF; unfold neg_delay at 3; now rewrite orb_assoc|]. split; [exact ST|]. split; [rewrite app_length; cbn [length]; lia|]. split; [exact GB|]. reflexivity.
Qed.
End Iter.
