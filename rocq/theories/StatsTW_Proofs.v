(** The packet buffers of the statistics of two-way sessions. *)
From Coq Require Import ZArith List Bool Lia ZifyBool ZifyNat Arith.
From Verif Require Import Base BaseLemmas Arith_Model Time_Model Wire_Model Wire_Spec File_Model File_Spec Sender_Spec Receiver_Spec Stats_Model Stats_Spec Stats_Proofs
  StatsTW_Model StatsTW_Spec.
Import ListNotations.
Open Scope Z_scope.
Ltac Zify.zify_post_hook ::= Z.div_mod_to_equations.

(** ** Lists of records *)
Lemma different_perm : forall l l', (forall x, In x l <-> In x l') -> different l = different l'.
Proof.
  intros l l' H. unfold different. f_equal. apply Nat.le_antisymm; apply NoDup_incl_length; try apply NoDup_nodup;
    intros x I; apply nodup_In; apply nodup_In in I; now apply H.
Qed.
Lemma different_snoc : forall l x, different (l ++ [x]) = different l + (if in_dec Z.eq_dec x l then 0 else 1).
Proof.
  intros l x. rewrite (different_perm (l ++ [x]) (x :: l)) by (intros y; rewrite in_app_iff; cbn [In]; tauto).
  unfold different. cbn [nodup]. destruct (in_dec Z.eq_dec x l); cbn [length]; lia.
Qed.
Lemma replies_snoc : forall R r, replies (R ++ [r]) = replies R ++ (if no_reply r then [] else [r]).
Proof. intros. unfold replies. rewrite filter_snoc. now destruct (no_reply r). Qed.
Lemma unanswered_snoc : forall R r, unanswered (R ++ [r]) = unanswered R ++ (if no_reply r then [r] else []).
Proof. intros. unfold unanswered. rewrite filter_snoc. now destruct (no_reply r). Qed.
Lemma packets_snoc : forall l r, packets (l ++ [r]) = packets l + (if in_dec Z.eq_dec (packet r) (map packet l) then 0 else 1).
Proof. intros. unfold packets. rewrite map_app. cbn [map]. apply different_snoc. Qed.
Lemma reflections_snoc : forall l r, reflections (l ++ [r]) = reflections l + (if in_dec Z.eq_dec (reply r) (map reply l) then 0 else 1).
Proof. intros. unfold reflections. rewrite map_app. cbn [map]. apply different_snoc. Qed.
Lemma firsts_snoc : forall l before r, firsts before (l ++ [r]) = firsts before l ++ (if in_dec Z.eq_dec (packet r) (before ++ map packet l) then [] else [r]).
Proof.
  induction l as [|x l IH]; intros before r; cbn [app firsts map].
  - rewrite app_nil_r. destruct (in_dec Z.eq_dec (packet r) before); reflexivity.
  - destruct (in_dec Z.eq_dec (packet x) before) as [I|I].
    + rewrite IH. f_equal. destruct (in_dec _ (packet r) (before ++ map packet l)) as [J|J]; destruct (in_dec _ (packet r) (before ++ packet x :: map packet l)) as [K|K];
        try reflexivity; exfalso; rewrite in_app_iff in *; cbn [In] in *; intuition congruence.
    + cbn [app]. rewrite IH. do 2 f_equal. destruct (in_dec _ (packet r) ((packet x :: before) ++ map packet l)) as [J|J]; destruct (in_dec _ (packet r) (before ++ packet x :: map packet l)) as [K|K];
        try reflexivity; exfalso; rewrite !in_app_iff in *; cbn [In] in *; intuition congruence.
Qed.
Lemma tw_count_snoc : forall f l r, tw_count f (l ++ [r]) = tw_count f l + (if f r then 1 else 0).
Proof. intros. unfold tw_count. rewrite filter_snoc, app_length. destruct (f r); cbn [length]; lia. Qed.
Lemma tw_count_pos : forall f l, 0 <= tw_count f l.
Proof. intros. unfold tw_count. lia. Qed.
Lemma tw_count_in : forall f l, 0 < tw_count f l <-> exists r, In r l /\ f r = true.
Proof.
  intros f l. unfold tw_count. split.
  - intros H. destruct (filter f l) as [|r t] eqn:E; [cbn in H; lia|]. exists r. apply filter_In. rewrite E. now left.
  - intros (r & I). apply filter_In in I. destruct (filter f l); [destruct I|cbn [length]; lia].
Qed.
(** the numbers of the replies to packet [q] *)
Definition numbers (q : Z) (A : list twrec) : list Z := map reply (filter (fun r => packet r =? q) A).
Lemma numbers_snoc : forall q A r, numbers q (A ++ [r]) = numbers q A ++ (if packet r =? q then [reply r] else []).
Proof. intros. unfold numbers. rewrite filter_snoc, map_app. now destruct (packet r =? q). Qed.
Lemma numbers_in : forall q A x, In x (numbers q A) <-> exists r, In r A /\ packet r = q /\ reply r = x.
Proof.
  intros q A x. unfold numbers. rewrite in_map_iff. split.
  - intros (r & E & I). apply filter_In in I. exists r. split; [tauto|]. split; [lia|exact E].
  - intros (r & I & P & E). exists r. split; [exact E|]. apply filter_In. split; [exact I|lia].
Qed.
Lemma different_zero : forall l, different l = 0 <-> l = [].
Proof.
  intros l. unfold different. split; [|intros ->; reflexivity]. intros H. destruct l as [|x l]; [reflexivity|].
  assert (I: In x (nodup Z.eq_dec (x :: l))) by (apply nodup_In; now left). destruct (nodup Z.eq_dec (x :: l)); [destruct I|cbn [length] in H; lia].
Qed.
Lemma different_pos : forall l, 0 <= different l.
Proof. intros. unfold different. lia. Qed.

(** ** Runs of nodes *)
Definition trun (lo : Z) (l : list tpkt) : Prop := forall i p, nth_error l i = Some p -> n_seq p = lo + Z.of_nat i.
Lemma trun_last : forall lo p l, trun lo (p :: l) -> n_seq (last l p) = lo + Z.of_nat (length l).
Proof. intros lo p l R. apply (R (length l)). apply nth_error_last. Qed.
Lemma trun_head : forall lo p l, trun lo (p :: l) -> n_seq p = lo.
Proof. intros lo p l R. pose proof (R 0%nat p eq_refl). lia. Qed.
Lemma trun_find : forall l lo q, trun lo l -> lo <= q < lo + Z.of_nat (length l) ->
  exists p, find (fun p => n_seq p =? q) l = Some p /\ nth_error l (Z.to_nat (q - lo)) = Some p /\ n_seq p = q.
Proof.
  induction l as [|x l IH]; intros lo q R Q; cbn [length] in Q; [lia|]. pose proof (trun_head _ _ _ R) as X. cbn [find].
  destruct (Z.eqb_spec (n_seq x) q) as [E|E].
  - exists x. replace (Z.to_nat (q - lo)) with 0%nat by lia. auto.
  - destruct (IH (lo + 1) q) as (p & A & B & C); [intros i p N; rewrite (R (S i) p N); lia|lia|]. exists p.
    replace (Z.to_nat (q - lo)) with (S (Z.to_nat (q - (lo + 1)))) by lia. auto.
Qed.
Lemma trun_tail : forall lo p l, trun lo (p :: l) -> trun (lo + 1) l.
Proof. intros lo p l R i x N. rewrite (R (S i) x N). lia. Qed.
Lemma trun_snoc : forall lo l x, trun lo l -> n_seq x = lo + Z.of_nat (length l) -> trun lo (l ++ [x]).
Proof. intros lo l x R E i p N. apply nth_error_snoc in N. destruct N as [N|(-> & ->)]; [now apply R|exact E]. Qed.

Fixpoint tdups (l : list tpkt) : Z := match l with [] => 0 | p :: r => Z.max 0 (n_seen p - 1) + tdups r end.
Fixpoint tlosts (l : list tpkt) : Z := match l with [] => 0 | p :: r => (if n_lost p then 1 else 0) + tlosts r end.
Lemma tdups_app : forall a b, tdups (a ++ b) = tdups a + tdups b.
Proof. induction a as [|x a IH]; intros b; cbn [app tdups]; [lia|]. rewrite IH. lia. Qed.
Lemma tlosts_app : forall a b, tlosts (a ++ b) = tlosts a + tlosts b.
Proof. induction a as [|x a IH]; intros b; cbn [app tlosts]; [lia|]. rewrite IH. lia. Qed.
Definition fresh (p : tpkt) : Prop := n_seen p = 0 /\ n_lost p = false.
Lemma fresh_sums : forall l, Forall fresh l -> tdups l = 0 /\ tlosts l = 0.
Proof. intros l F. induction F as [|p l (A & B) F (IH1 & IH2)]; cbn [tdups tlosts]; [auto|]. rewrite A, B. lia. Qed.

(** changing one node *)
Definition tat (q : Z) (p' : tpkt) (l : list tpkt) : list tpkt := map (fun p => if n_seq p =? q then p' else p) l.
Lemma tat_none : forall q p' l, (forall p, In p l -> n_seq p <> q) -> tat q p' l = l.
Proof.
  induction l as [|x l IH]; intros N; cbn [tat map]; [reflexivity|]. fold (tat q p' l). rewrite IH by (intros; apply N; now right).
  destruct (Z.eqb_spec (n_seq x) q) as [E|E]; [|reflexivity]. destruct (N x); [now left|exact E].
Qed.
Lemma tat_sums : forall q p' l lo i p, trun lo l -> nth_error l i = Some p -> n_seq p = q ->
  tdups (tat q p' l) = tdups l + (Z.max 0 (n_seen p' - 1) - Z.max 0 (n_seen p - 1)) /\
  tlosts (tat q p' l) = tlosts l + ((if n_lost p' then 1 else 0) - (if n_lost p then 1 else 0)).
Proof.
  intros q p'. induction l as [|x l IH]; intros lo i p R N Q; [destruct i; discriminate|]. pose proof (R 0%nat x eq_refl) as X.
  cbn [tat map]. fold (tat q p' l). destruct i as [|i]; cbn [nth_error] in N.
  - injection N as ->. rewrite Q, Z.eqb_refl. cbn [tdups tlosts]. rewrite tat_none; [lia|].
    intros y I. destruct (In_nth_error _ _ I) as (j & J). rewrite (R (S j) y J). lia.
  - pose proof (R (S i) p N) as P. replace (n_seq x =? q) with false by lia. cbn [tdups tlosts].
    destruct (IH (lo + 1) i p (trun_tail _ _ _ R) N Q) as (-> & ->). lia.
Qed.
Lemma tat_run : forall q p' l lo, n_seq p' = q -> trun lo l -> trun lo (tat q p' l).
Proof.
  intros q p' l lo F R i p N. unfold tat in N. rewrite nth_error_map in N. destruct (nth_error l i) as [x|] eqn:E; [|discriminate].
  injection N as <-. pose proof (R i x E). destruct (Z.eqb_spec (n_seq x) q); lia.
Qed.
Lemma tat_in : forall q p' l x, In x (tat q p' l) -> (x = p' /\ exists y, In y l /\ n_seq y = q) \/ (In x l /\ n_seq x <> q).
Proof.
  intros q p' l x I. unfold tat in I. apply in_map_iff in I. destruct I as (y & E & I). destruct (Z.eqb_spec (n_seq y) q); subst; eauto.
Qed.
Lemma tat_length : forall q p' l, length (tat q p' l) = length l.
Proof. intros. apply map_length. Qed.

Section Proofs.
Context {start : Z} {delta : nat -> Z}.
Notation tgrow := (tgrow delta).
Notation tpacket_get := (tpacket_get delta).
Notation tbegin_flush := (tbegin_flush delta).
Notation tflush_while := (tflush_while delta).
Notation tflush_all := (tflush_all delta).
Notation sch := (sched_stamp start delta).

Definition counters (k k' : tpk) : Prop :=
  q_lost k' = q_lost k /\ q_dups0 k' = q_dups0 k /\ q_dups1 k' = q_dups1 k /\ q_end_time k' = q_end_time k.
Lemma other_buf : forall bck b k, tbuffer (negb bck) (tset_buf bck b k) = tbuffer (negb bck) k /\ tbuffer bck (tset_buf bck b k) = b.
Proof. intros [] b k; split; reflexivity. Qed.

(** what is left in a node of the free list *)
Definition stale (f : list Z) (a : Z) : Prop := a = 0 \/ In a f.
Lemma take_stale : forall f a r, take_free f = (a, r) -> stale f a /\ forall x, stale r x -> stale f x.
Proof.
  intros [|y f] a r E; cbn [take_free] in E; injection E as <- <-.
  - split; [now left|]. intros x [->|I]; [now left|]. left. cbn [repeat In] in I. lia.
  - split; [right; now left|]. intros x [->|I]; [now left|right; now right].
Qed.

Lemma tgrow_spec : forall n bck lst k lo, tb_list (tbuffer bck k) <> [] -> trun lo (tb_list (tbuffer bck k)) ->
  let len := Z.of_nat (length (tb_list (tbuffer bck k))) in
  tb_isctx (tbuffer bck k) = lo + len -> (bck = true \/ lo + len - 1 + Z.of_nat n <= lst) ->
  exists k' ext, tgrow n bck lst k = Some k' /\ tb_list (tbuffer bck k') = tb_list (tbuffer bck k) ++ ext /\ length ext = n /\
    trun lo (tb_list (tbuffer bck k) ++ ext) /\ tb_isctx (tbuffer bck k') = lo + len + Z.of_nat n /\
    Forall fresh ext /\ Forall (fun p => stale (tb_free (tbuffer bck k)) (n_assoc p)) ext /\
    (forall a, stale (tb_free (tbuffer bck k')) a -> stale (tb_free (tbuffer bck k)) a) /\
    tbuffer (negb bck) k' = tbuffer (negb bck) k /\ counters k k' /\
    (bck = true -> q_gen k' = q_gen k /\ q_endnum k' = q_endnum k) /\
    (bck = false -> 0 <= lo -> q_gen k = Z.to_nat (lo + len) -> q_endnum k = sch (lo + len - 1) ->
       q_gen k' = Z.to_nat (lo + len + Z.of_nat n) /\ q_endnum k' = sch (lo + len + Z.of_nat n - 1) /\ Forall (fun p => n_time p = sch (n_seq p)) ext).
Proof.
  induction n as [|n IH]; intros bck lst k lo NE RN len IC LE.
  - exists k, []. rewrite app_nil_r. cbn [StatsTW_Model.tgrow]. change (Z.of_nat 0) with 0. rewrite Z.add_0_r. unfold counters. auto 20.
  - cbn [StatsTW_Model.tgrow]. destruct (tb_list (tbuffer bck k)) as [|p r] eqn:BL; [now destruct NE|].
    rewrite (trun_last _ _ _ RN). subst len. cbn [length] in *. rewrite IC.
    replace (lo + Z.of_nat (length r) + 1 =? lo + Z.of_nat (S (length r))) with true by lia. cbn [negb].
    replace (negb bck && (lst <? lo + Z.of_nat (length r) + 1)) with false by (destruct bck; cbn [negb andb]; lia).
    destruct (take_free (tb_free (tbuffer bck k))) as [a f] eqn:TF. destruct (take_stale _ _ _ TF) as (T1 & T2).
    match goal with |- context[tset_buf bck (mkTBuf _ _ _) ?kk] => set (k0 := kk) end.
    match goal with |- context[mkTBuf ((p :: r) ++ [?y])] => set (x := y) end.
    match goal with |- context[tgrow n bck lst ?kk] => set (k1 := kk) end.
    destruct (other_buf bck (mkTBuf ((p :: r) ++ [x]) (lo + Z.of_nat (S (length r)) + 1) f) k0) as (O1 & O2). fold k1 in O1, O2.
    assert (K0: tbuffer (negb bck) k0 = tbuffer (negb bck) k) by (unfold k0; destruct bck; reflexivity).
    assert (XS: n_seq x = lo + Z.of_nat (length (p :: r))) by (unfold x; cbn [n_seq length]; lia).
    destruct (IH bck lst k1 lo) as (k' & ext & G & E1 & E2 & E3 & E4 & E5 & E6 & E7 & E8 & E9 & E10 & E11).
    { rewrite O2. discriminate. }
    { rewrite O2. cbn [tb_list]. now apply trun_snoc. }
    { rewrite O2. cbn [tb_isctx tb_list]. rewrite app_length. cbn [length]. lia. }
    { rewrite O2. cbn [tb_list]. rewrite app_length. cbn [length]. destruct LE as [LE|LE]; [now left|right; lia]. }
    rewrite O2 in *. cbn [tb_list tb_isctx tb_free] in *. rewrite app_length in *. cbn [length] in *.
    exists k', (x :: ext). split; [exact G|]. split; [rewrite E1, <- app_assoc; reflexivity|]. split; [cbn [length]; lia|].
    split; [rewrite <- app_assoc in E3; exact E3|]. split; [rewrite E4; lia|].
    split; [constructor; [split; reflexivity|exact E5]|].
    split. { constructor; [exact T1|]. eapply Forall_impl; [|exact E6]. intros y. apply T2. }
    split; [auto|]. split; [congruence|].
    split. { destruct E9 as (C1 & C2 & C3 & C4). unfold counters. rewrite C1, C2, C3, C4. unfold k1, k0. destruct bck; repeat split. }
    split. { intros ->. destruct (E10 eq_refl) as (-> & ->). unfold k1, k0. auto. }
    intros -> L0 GE EN. assert (EK: q_endnum k0 = sch (lo + Z.of_nat (S (length r)))).
    { unfold k0. cbn [q_endnum]. rewrite GE, EN.
      replace (lo + Z.of_nat (S (length r)) - 1) with (Z.of_nat (Z.to_nat (lo + Z.of_nat (S (length r)) - 1))) by lia.
      replace (Z.to_nat (lo + Z.of_nat (S (length r)))) with (S (Z.to_nat (lo + Z.of_nat (S (length r)) - 1))) by lia.
      rewrite (@sch_next start delta). f_equal. lia. }
    destruct (E11 eq_refl L0) as (H1 & H2 & H3).
    { unfold k1, k0. cbn [tset_buf q_gen]. rewrite GE. lia. }
    { change (q_endnum k1) with (q_endnum k0). rewrite EK. f_equal. lia. }
    split; [rewrite H1; f_equal; lia|]. split; [rewrite H2; f_equal; lia|]. constructor; [|exact H3].
    unfold x. cbn [n_time n_seq]. rewrite EK. f_equal. lia.
Qed.

(** asking for packet [q], not below [first] *)
Lemma tget_spec : forall bck first lst k lo q, tb_list (tbuffer bck k) <> [] -> trun lo (tb_list (tbuffer bck k)) -> first <= lo ->
  let len := Z.of_nat (length (tb_list (tbuffer bck k))) in
  tb_isctx (tbuffer bck k) = lo + len -> (bck = true \/ first <= q <= lst) ->
  if q <? lo then tpacket_get bck first lst q k = TNull
  else exists k' ext p, tpacket_get bck first lst q k = TNode k' p /\ tb_list (tbuffer bck k') = tb_list (tbuffer bck k) ++ ext /\
    lo + len + Z.of_nat (length ext) = Z.max (lo + len) (q + 1) /\
    trun lo (tb_list (tbuffer bck k')) /\ tb_isctx (tbuffer bck k') = lo + len + Z.of_nat (length ext) /\
    Forall fresh ext /\ Forall (fun p => stale (tb_free (tbuffer bck k)) (n_assoc p)) ext /\
    (forall a, stale (tb_free (tbuffer bck k')) a -> stale (tb_free (tbuffer bck k)) a) /\
    tbuffer (negb bck) k' = tbuffer (negb bck) k /\ counters k k' /\
    (bck = true -> q_gen k' = q_gen k /\ q_endnum k' = q_endnum k) /\
    (bck = false -> 0 <= lo -> q_gen k = Z.to_nat (lo + len) -> q_endnum k = sch (lo + len - 1) ->
       q_gen k' = Z.to_nat (lo + len + Z.of_nat (length ext)) /\ q_endnum k' = sch (lo + len + Z.of_nat (length ext) - 1) /\ Forall (fun p => n_time p = sch (n_seq p)) ext) /\
    nth_error (tb_list (tbuffer bck k')) (Z.to_nat (q - lo)) = Some p /\ n_seq p = q.
Proof.
  intros bck first lst k lo q NE RN FL len IC LE. unfold StatsTW_Model.tpacket_get.
  destruct (tb_list (tbuffer bck k)) as [|p r] eqn:BL; [now destruct NE|]. rewrite (trun_last _ _ _ RN), (trun_head _ _ _ RN).
  subst len. cbn [length] in *.
  assert (SAME: lo <= q <= lo + Z.of_nat (length r) -> exists k' ext p0, tfetch bck q k = TNode k' p0 /\ tb_list (tbuffer bck k') = (p :: r) ++ ext /\
    lo + Z.of_nat (S (length r)) + Z.of_nat (length ext) = Z.max (lo + Z.of_nat (S (length r))) (q + 1) /\
    trun lo (tb_list (tbuffer bck k')) /\ tb_isctx (tbuffer bck k') = lo + Z.of_nat (S (length r)) + Z.of_nat (length ext) /\
    Forall fresh ext /\ Forall (fun p => stale (tb_free (tbuffer bck k)) (n_assoc p)) ext /\
    (forall a, stale (tb_free (tbuffer bck k')) a -> stale (tb_free (tbuffer bck k)) a) /\
    tbuffer (negb bck) k' = tbuffer (negb bck) k /\ counters k k' /\
    (bck = true -> q_gen k' = q_gen k /\ q_endnum k' = q_endnum k) /\
    (bck = false -> 0 <= lo -> q_gen k = Z.to_nat (lo + Z.of_nat (S (length r))) -> q_endnum k = sch (lo + Z.of_nat (S (length r)) - 1) ->
       q_gen k' = Z.to_nat (lo + Z.of_nat (S (length r)) + Z.of_nat (length ext)) /\ q_endnum k' = sch (lo + Z.of_nat (S (length r)) + Z.of_nat (length ext) - 1) /\ Forall (fun p => n_time p = sch (n_seq p)) ext) /\
    nth_error (tb_list (tbuffer bck k')) (Z.to_nat (q - lo)) = Some p0 /\ n_seq p0 = q).
  { intros X. destruct (trun_find (p :: r) lo q RN ltac:(cbn [length]; lia)) as (x & F1 & F2 & F3). exists k, [], x. unfold tfetch. rewrite BL, F1.
    rewrite app_nil_r. cbn [length]. unfold counters. rewrite !Z.add_0_r. split; [reflexivity|]. split; [reflexivity|]. split; [lia|]. auto 20. }
  destruct (Z.eqb_spec q (lo + Z.of_nat (length r))) as [Q1|Q1].
  - replace (q <? lo) with false by lia. apply SAME. lia.
  - destruct (Z.ltb_spec q lo) as [Q3|Q3].
    + destruct ((q <? first) || _); [reflexivity|]. replace (lo + Z.of_nat (length r) <? q) with false by lia. reflexivity.
    + replace ((q <? first) || (negb bck && (lst <? q))) with false by (destruct bck; cbn [negb andb]; lia).
      destruct (Z.ltb_spec (lo + Z.of_nat (length r)) q) as [Q2|Q2]; [|apply SAME; lia].
      pose proof (tgrow_spec (Z.to_nat (q - (lo + Z.of_nat (length r)))) bck lst k lo) as G. rewrite BL in G. cbn zeta in G. cbn [length] in G.
      destruct (G ltac:(discriminate) RN IC ltac:(destruct LE as [LE|LE]; [now left|right; lia])) as (k' & ext & G0 & E1 & E2 & E3 & E4 & E5 & E6 & E7 & E8 & E9 & E10 & E11).
      rewrite G0. destruct (trun_find ((p :: r) ++ ext) lo q E3) as (x & F1 & F2 & F3). { rewrite app_length. cbn [length]. lia. }
      exists k', ext, x. unfold tfetch. rewrite E1, F1, E2. auto 20 with zarith.
Qed.
End Proofs.
