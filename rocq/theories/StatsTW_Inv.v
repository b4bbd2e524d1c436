(** What holds of the packet buffers while a two-way session is summarized. *)
From Coq Require Import ZArith List Bool Lia ZifyBool ZifyNat Arith.
From Verif Require Import Base BaseLemmas Arith_Model Time_Model Wire_Model Wire_Spec File_Model File_Spec Sender_Spec Receiver_Spec Stats_Model Stats_Spec Stats_Proofs
  StatsTW_Model StatsTW_Spec StatsTW_Proofs.
Import ListNotations.
Open Scope Z_scope.
Ltac Zify.zify_post_hook ::= Z.div_mod_to_equations.

(** number of records of packet [q] as lost *)
Definition losses (q : Z) (R : list twrec) : Z := tw_count (fun r => no_reply r && (packet r =? q)) R.
(** [a] is the number of a reply to a packet up to [q], or 0 *)
Definition assoc_of (A : list twrec) (q a : Z) : Prop := a = 0 \/ exists r, In r A /\ packet r <= q /\ reply r = a.
Lemma assoc_mono : forall A q q' a, assoc_of A q a -> q <= q' -> assoc_of A q' a.
Proof. intros A q q' a [X|(r & I & P & E)] L; [now left|]. right. exists r. split; [exact I|]. split; [lia|exact E]. Qed.
Lemma assoc_app : forall A B q a, assoc_of A q a -> assoc_of (A ++ B) q a.
Proof. intros A B q a [X|(r & I & P & E)]; [now left|]. right. exists r. split; [apply in_app_iff; now left|auto]. Qed.
(** no packet both lost and answered, no number for the replies to two packets *)
Definition sane (R : list twrec) : Prop := (forall q, losses q R = 0 \/ numbers q (replies R) = []) /\ own_numbers R.

Section Inv.
Context {start : Z} {delta : nat -> Z}.
Notation tgrow := (tgrow delta).
Notation tpacket_get := (tpacket_get delta).
Notation tbegin_flush := (tbegin_flush delta).
Notation tflush_while := (tflush_while delta).
Notation tflush_all := (tflush_all delta).
Notation tsync := (tsync delta).
Notation sch := (sched_stamp start delta).

Definition fnode (R : list twrec) (p : tpkt) : Prop :=
  n_time p = sch (n_seq p) /\ n_seen p = different (numbers (n_seq p) (replies R)) /\ n_lost p = (0 <? losses (n_seq p) R) /\
  assoc_of (replies R) (n_seq p) (n_assoc p) /\ (0 < n_seen p -> In (n_assoc p) (numbers (n_seq p) (replies R))).
Definition bnode (R : list twrec) (p : tpkt) : Prop :=
  n_seen p = tw_count (fun r => reply r =? n_seq p) (replies R) /\ n_lost p = false /\
  (forall r, In r (replies R) -> reply r = n_seq p -> packet r = n_assoc p).
Definition flen (k : tpk) : Z := Z.of_nat (length (tb_list (q_fwd k))).
Definition blen (k : tpk) : Z := Z.of_nat (length (tb_list (q_bck k))).
Definition Fw (first last : Z) (R : list twrec) (lo : Z) (k : tpk) : Prop :=
  tb_list (q_fwd k) <> [] /\ trun lo (tb_list (q_fwd k)) /\ first <= lo /\ lo + flen k - 1 <= Z.max first (last - 1) /\
  tb_isctx (q_fwd k) = lo + flen k /\ q_gen k = Z.to_nat (lo + flen k) /\ q_endnum k = sch (lo + flen k - 1) /\
  Forall (fnode R) (tb_list (q_fwd k)) /\ (forall r, In r R -> packet r < lo + flen k) /\
  (forall a, stale (tb_free (q_fwd k)) a -> assoc_of (replies R) (lo - 1) a).
Definition Bk (first : Z) (R : list twrec) (lo : Z) (k : tpk) : Prop :=
  tb_list (q_bck k) <> [] /\ trun lo (tb_list (q_bck k)) /\ first <= lo /\ tb_isctx (q_bck k) = lo + blen k /\
  Forall (bnode R) (tb_list (q_bck k)) /\ (forall r, In r (replies R) -> reply r < lo + blen k).
(** [d] packets and [e] replies too many, [n] lost packets *)
Definition fsums (d n : Z) (k : tpk) : Prop := q_dups0 k + tdups (tb_list (q_fwd k)) = d /\ q_lost k + tlosts (tb_list (q_fwd k)) = n.
Definition bsums (e : Z) (k : tpk) : Prop := q_dups1 k + tdups (tb_list (q_bck k)) = e.

Lemma none_yet : forall R q, (forall r, In r R -> packet r <> q) -> losses q R = 0 /\ numbers q (replies R) = [].
Proof.
  intros R q N. split.
  - unfold losses. pose proof (tw_count_pos (fun r => no_reply r && (packet r =? q)) R) as P. pose proof (tw_count_in (fun r => no_reply r && (packet r =? q)) R) as I.
    destruct (Z.eq_dec (tw_count (fun r => no_reply r && (packet r =? q)) R) 0) as [E|E]; [exact E|]. destruct I as (I & _). destruct I as (r & I & X); [lia|].
    destruct (N r I). lia.
  - destruct (numbers q (replies R)) as [|x l] eqn:E; [reflexivity|]. assert (I: In x (numbers q (replies R))) by (rewrite E; now left).
    apply numbers_in in I. destruct I as (r & I & P & _). apply filter_In in I. destruct (N r (proj1 I) P).
Qed.
Lemma fresh_fnode : forall R lo p, fresh p -> n_time p = sch (n_seq p) -> (forall r, In r R -> packet r <> n_seq p) -> assoc_of (replies R) lo (n_assoc p) -> lo <= n_seq p -> fnode R p.
Proof.
  intros R lo p (S0 & L0) T N A L. destruct (none_yet R (n_seq p) N) as (E1 & E2). unfold fnode. rewrite S0, L0, E1, E2.
  split; [exact T|]. split; [reflexivity|]. split; [reflexivity|]. split; [eapply assoc_mono; eauto|]. lia.
Qed.
Lemma fresh_bnode : forall R p, fresh p -> (forall r, In r (replies R) -> reply r <> n_seq p) -> bnode R p.
Proof.
  intros R p (S0 & L0) N. unfold bnode. rewrite S0, L0. split; [|split; [reflexivity|intros r I E; destruct (N r I E)]].
  pose proof (tw_count_pos (fun r => reply r =? n_seq p) (replies R)) as P. pose proof (tw_count_in (fun r => reply r =? n_seq p) (replies R)) as (I & _).
  destruct (Z.eq_dec (tw_count (fun r => reply r =? n_seq p) (replies R)) 0) as [E|E]; [symmetry; exact E|]. destruct I as (r & I & X); [lia|].
  destruct (N r I). lia.
Qed.
Lemma app_nonempty : forall A (l e : list A), l <> [] -> l ++ e <> [].
Proof. intros A [|x l] e N; [now destruct N|discriminate]. Qed.
Lemma trun_ext : forall lo l ext p, trun lo (l ++ ext) -> In p ext -> lo + Z.of_nat (length l) <= n_seq p.
Proof.
  intros lo l ext p R I. destruct (In_nth_error _ _ I) as (i & N). specialize (R (length l + i)%nat p).
  rewrite nth_error_app2 in R by lia. replace (length l + i - length l)%nat with i in R by lia. specialize (R N). lia.
Qed.

Lemma get_f : forall first last R lo d n k q, 0 <= first -> Fw first last R lo k -> fsums d n k -> first <= q < last ->
  if q <? lo then tpacket_get false first last q k = TNull
  else exists k' p, tpacket_get false first last q k = TNode k' p /\ Fw first last R lo k' /\ fsums d n k' /\ q_bck k' = q_bck k /\ q_dups1 k' = q_dups1 k /\ q_end_time k' = q_end_time k /\
    q < lo + flen k' /\ lo + flen k' = Z.max (lo + flen k) (q + 1) /\ nth_error (tb_list (q_fwd k')) (Z.to_nat (q - lo)) = Some p /\ n_seq p = q /\
    (forall p0 r0, tb_list (q_fwd k) = p0 :: r0 -> exists r1, tb_list (q_fwd k') = p0 :: r1).
Proof.
  intros first last R lo d n k q F0 (NE & RN & L0 & L1 & IC & GE & EN & ND & AB & ST) (U1 & U2) Q.
  pose proof (tget_spec (start := start) (delta := delta) false first last k lo q NE RN L0 IC ltac:(right; lia)) as G. cbn [tbuffer negb] in G. fold (flen k) in G. cbn zeta in G.
  destruct (q <? lo) eqn:QL; [exact G|].
  destruct G as (k' & ext & p & G & E1 & E2 & E3 & E4 & E5 & E6 & E7 & E8 & (C1 & C2 & C3 & C4) & _ & E9 & E10 & E11).
  destruct (E9 eq_refl ltac:(lia) GE EN) as (H1 & H2 & H3). destruct (fresh_sums ext E5) as (X1 & X2).
  assert (FL: lo + flen k' = lo + flen k + Z.of_nat (length ext)) by (unfold flen; rewrite E1, app_length; lia).
  exists k', p. split; [exact G|]. split.
  { unfold Fw. rewrite FL. split; [rewrite E1; now apply app_nonempty|]. split; [exact E3|]. split; [exact L0|]. split; [lia|].
    split; [exact E4|]. split; [exact H1|]. split; [exact H2|]. split; [|split; [intros r I; specialize (AB r I); lia|intros a I; apply ST, E7, I]].
    rewrite E1. apply Forall_app. split; [exact ND|]. rewrite Forall_forall in *. intros x I. apply fresh_fnode with (lo := lo - 1); auto.
    - intros r J EQ. rewrite E1 in E3. pose proof (trun_ext _ _ _ _ E3 I). specialize (AB r J). unfold flen in *. lia.
    - rewrite E1 in E3. pose proof (trun_ext _ _ _ _ E3 I). lia. }
  split. { unfold fsums. rewrite E1, tdups_app, tlosts_app, X1, X2, C1, C2. lia. }
  split; [exact E8|]. split; [exact C3|]. split; [exact C4|]. split; [lia|]. split; [lia|]. split; [exact E10|]. split; [exact E11|].
  intros p0 r0 E. rewrite E1, E. cbn [app]. eauto.
Qed.

Lemma get_b : forall first last R lo e k q, Bk first R lo k -> bsums e k ->
  if q <? lo then tpacket_get true first last q k = TNull
  else exists k' p, tpacket_get true first last q k = TNode k' p /\ Bk first R lo k' /\ bsums e k' /\ q_fwd k' = q_fwd k /\ q_gen k' = q_gen k /\ q_endnum k' = q_endnum k /\
    q_dups0 k' = q_dups0 k /\ q_lost k' = q_lost k /\ q_end_time k' = q_end_time k /\
    q < lo + blen k' /\ lo + blen k' = Z.max (lo + blen k) (q + 1) /\ nth_error (tb_list (q_bck k')) (Z.to_nat (q - lo)) = Some p /\ n_seq p = q /\
    (forall p0 r0, tb_list (q_bck k) = p0 :: r0 -> exists r1, tb_list (q_bck k') = p0 :: r1).
Proof.
  intros first last R lo e k q (NE & RN & L0 & IC & ND & AB) U.
  pose proof (tget_spec (start := start) (delta := delta) true first last k lo q NE RN L0 IC ltac:(now left)) as G. cbn [tbuffer negb] in G. fold (blen k) in G. cbn zeta in G.
  destruct (q <? lo) eqn:QL; [exact G|].
  destruct G as (k' & ext & p & G & E1 & E2 & E3 & E4 & E5 & E6 & E7 & E8 & (C1 & C2 & C3 & C4) & E9 & _ & E10 & E11).
  destruct (E9 eq_refl) as (H1 & H2). destruct (fresh_sums ext E5) as (X1 & X2).
  assert (FL: lo + blen k' = lo + blen k + Z.of_nat (length ext)) by (unfold blen; rewrite E1, app_length; lia).
  exists k', p. split; [exact G|]. split.
  { unfold Bk. rewrite FL. split; [rewrite E1; now apply app_nonempty|]. split; [exact E3|]. split; [exact L0|].
    split; [exact E4|]. split; [|intros r I; specialize (AB r I); lia].
    rewrite E1. apply Forall_app. split; [exact ND|]. rewrite Forall_forall in *. intros x I. apply fresh_bnode; auto.
    intros r J EQ. rewrite E1 in E3. pose proof (trun_ext _ _ _ _ E3 I). specialize (AB r J). unfold blen in *. lia. }
  split. { unfold bsums in *. rewrite E1, tdups_app, X1, C3. lia. }
  split; [exact E8|]. repeat (split; [assumption || lia|]). intros p0 r0 E. rewrite E1, E. cbn [app]. eauto.
Qed.

Lemma u32_small : forall x, 0 <= x < 2^32 -> u32 x = x.
Proof. intros x B. unfold u32. change M32 with (2^32). apply Z.mod_small. exact B. Qed.

Lemma flush_f : forall first last R lo d n k, 0 <= first < 2^32 - 1 -> last < 2^32 -> Fw first last R lo k -> sane R -> fsums d n k ->
  exists k', tbegin_flush false first last k = Some (lo + 1 <? last, k') /\ q_bck k' = q_bck k /\ q_dups1 k' = q_dups1 k /\ q_end_time k' = sch lo /\ fsums d n k' /\
    if lo + 1 <? last then Fw first last R (lo + 1) k' /\ lo + 1 + flen k' = Z.max (lo + flen k) (lo + 2) else tb_list (q_fwd k') = [].
Proof.
  intros first last R lo d n k F0 LB F (SA & _) SU. pose proof F as (NE & RN & L0 & L1 & IC & GE & EN & ND & AB & ST).
  unfold StatsTW_Model.tbegin_flush. cbn [tbuffer].
  destruct (tb_list (q_fwd k)) as [|p rest] eqn:BL; [now destruct NE|]. pose proof (trun_head _ _ _ RN) as PS. rewrite andb_false_r.
  apply Forall_cons_iff in ND. destruct ND as ((P1 & P2 & P3 & P4 & P5) & NR). rewrite PS in P1, P2, P3, P4, P5.
  match goal with |- context[match rest with [] => _ | _ :: _ => Some (true, tset_buf false _ ?kk) end] => set (k1 := kk) end.
  assert (K1: q_fwd k1 = q_fwd k /\ q_bck k1 = q_bck k /\ q_gen k1 = q_gen k /\ q_endnum k1 = q_endnum k /\ q_dups1 k1 = q_dups1 k /\ q_end_time k1 = sch lo /\
     q_dups0 k1 = q_dups0 k + Z.max 0 (n_seen p - 1) /\ q_lost k1 = q_lost k + (if n_lost p then 1 else 0)).
  { pose proof (different_pos (numbers lo (replies R))). unfold k1. destruct (n_lost p) eqn:LO; [|destruct (Z.eqb_spec (n_seen p) 0) as [->|SZ]];
      cbn [q_fwd q_bck q_gen q_endnum q_dups1 q_end_time q_dups0 q_lost]; repeat (split; [first [reflexivity|exact P1|lia]|]); try lia.
    destruct (SA lo) as [X|X]; [lia|]. rewrite X in P2. change (different []) with 0 in P2. split; lia. }
  clearbody k1. destruct K1 as (K1 & K2 & K3 & K4 & K5 & K6 & K7 & K8).
  assert (F1: Fw first last R lo k1). { unfold Fw, flen. rewrite K1, K3, K4. unfold flen in F. exact F. }
  assert (FL1: flen k1 = flen k) by (unfold flen; now rewrite K1).
  destruct SU as (U1 & U2).
  assert (S1: fsums (d + Z.max 0 (n_seen p - 1)) (n + (if n_lost p then 1 else 0)) k1). { unfold fsums. rewrite K1, K7, K8. lia. }
  rewrite BL in U1, U2. cbn [tdups tlosts] in U1, U2.
  assert (FRESH: forall b a, stale (n_assoc p :: b) a -> (forall a, stale b a -> assoc_of (replies R) (lo - 1) a) -> assoc_of (replies R) (lo + 1 - 1) a).
  { intros b a [->|[<-|I]] HH; [now left|eapply assoc_mono; [exact P4|lia]|]. eapply assoc_mono; [apply HH; right; exact I|lia]. }
  destruct rest as [|y rest].
  - assert (TL: flen k = 1) by (unfold flen; rewrite BL; reflexivity).
    rewrite PS, u32_small by lia. destruct (Z.ltb_spec (lo + 1) last) as [LL|LL].
    + pose proof (get_f first last R lo _ _ k1 (lo + 1) ltac:(lia) F1 S1 ltac:(lia)) as G. replace (lo + 1 <? lo) with false in G by lia.
      destruct G as (k' & x & G & F' & S' & M1 & M2 & M3 & T1 & T2 & NT & XS & HD). rewrite G. eexists. split; [reflexivity|].
      cbn [tset_buf tbuffer q_bck q_dups1 q_end_time]. split; [congruence|]. split; [congruence|]. split; [congruence|].
      destruct F' as (NE' & RN' & L0' & L1' & IC' & GE' & EN' & ND' & AB' & ST').
      destruct (HD p []) as (rest' & BL'); [rewrite K1; exact BL|]. rewrite BL' in *. cbn [tl].
      apply Forall_cons_iff in ND'. destruct ND' as (_ & NR'). destruct S' as (U3 & U4). rewrite BL' in U3, U4. cbn [tdups tlosts] in *.
      assert (FL: flen k' = 1 + Z.of_nat (length rest')) by (unfold flen; rewrite BL'; cbn [length]; lia).
      split. { unfold fsums. cbn [q_dups0 q_lost q_fwd tb_list tfree]. lia. }
      match goal with |- Fw _ _ _ _ ?k2 /\ _ => assert (T3: lo + 1 + flen k2 = lo + flen k') by (rewrite FL; unfold flen; cbn [q_fwd tb_list tfree]; lia) end.
      split; [|lia]. unfold Fw. rewrite T3. cbn [q_fwd tfree tb_list tb_isctx q_gen q_endnum tb_free].
      split. { intros ->. cbn [length] in FL. lia. }
      split; [eapply trun_tail; eauto|]. split; [lia|]. split; [lia|]. split; [exact IC'|]. split; [exact GE'|]. split; [exact EN'|]. split; [exact NR'|].
      split; [exact AB'|]. intros a I. eapply FRESH; [exact I|]. exact ST'.
    + eexists. split; [reflexivity|]. cbn [tset_buf tbuffer q_bck q_dups1 q_end_time q_fwd tfree tb_list].
      repeat (split; [assumption|]). split; [|reflexivity]. unfold fsums. cbn [q_dups0 q_lost q_fwd tb_list tdups tlosts tfree]. cbn [tdups tlosts] in *. lia.
  - assert (TL: 2 <= flen k) by (unfold flen; rewrite BL; cbn [length]; lia).
    replace (lo + 1 <? last) with true by lia. eexists. split; [reflexivity|]. cbn [tset_buf tbuffer q_bck q_dups1 q_end_time].
    repeat (split; [assumption|]).
    split. { unfold fsums. cbn [q_dups0 q_lost q_fwd tb_list tfree]. cbn [tdups tlosts] in *. lia. }
    match goal with |- Fw _ _ _ _ ?k2 /\ _ => assert (T2: lo + 1 + flen k2 = lo + flen k) by (unfold flen; rewrite BL; cbn [q_fwd tb_list tfree length]; lia) end.
    split; [|lia]. unfold Fw. rewrite T2. cbn [q_fwd tfree tb_list tb_isctx q_gen q_endnum tb_free]. rewrite K1, K3, K4.
    split; [discriminate|]. split; [eapply trun_tail; eauto|]. split; [lia|]. split; [lia|]. split; [exact IC|]. split; [exact GE|]. split; [exact EN|]. split; [exact NR|].
    split; [exact AB|]. intros a I. eapply FRESH; [exact I|]. exact ST.
Qed.

Lemma while_f : forall fuel more mq first last R lo d n k, 0 <= first < 2^32 - 1 -> last < 2^32 -> Fw first last R lo k -> sane R -> fsums d n k ->
  (forall p, fnode R p -> more p = mq (n_seq p)) -> (Z.to_nat (last - lo) < fuel)%nat ->
  match tflush_while fuel false more first last k with
  | MCrash => False
  | MGo k' => exists lo', lo <= lo' /\ (lo' = lo \/ lo' < last) /\ Fw first last R lo' k' /\ fsums d n k' /\ q_bck k' = q_bck k /\
      q_dups1 k' = q_dups1 k /\ mq lo' = false /\ (forall q, lo <= q < lo' -> mq q = true)
  | MErr k' => (forall q, lo <= q < last -> mq q = true)
  end.
Proof.
  induction fuel as [|fuel IH]; intros more mq first last R lo d n k F0 LB F SA SU MO FU; [lia|].
  cbn [StatsTW_Model.tflush_while tbuffer]. pose proof F as (NE & RN & L0 & L1 & IC & GE & EN & ND & _).
  destruct (tb_list (q_fwd k)) as [|p rest] eqn:BL; [now destruct NE|]. pose proof (trun_head _ _ _ RN) as PS.
  apply Forall_cons_iff in ND. destruct ND as (NP & _). rewrite (MO p NP), PS.
  destruct (mq lo) eqn:M.
  - destruct (flush_f first last R lo d n k F0 LB F SA SU) as (k1 & B1 & B3 & B4 & B5 & B6 & B7). rewrite B1.
    destruct (Z.ltb_spec (lo + 1) last) as [LL|LL].
    + destruct B7 as (F1 & T1). specialize (IH more mq first last R (lo + 1) d n k1 F0 LB F1 SA B6 MO ltac:(lia)).
      destruct (tflush_while fuel false more first last k1) as [k2|k2|]; [| |exact IH].
      * destruct IH as (lo' & I1 & I2 & I3 & I4 & I6 & I7 & I8 & I9). exists lo'. split; [lia|]. split; [right; lia|].
        do 2 (split; [assumption|]). split; [congruence|]. split; [congruence|]. split; [assumption|].
        intros q Q. destruct (Z.eq_dec q lo) as [->|]; [exact M|]. apply I9. lia.
      * intros q Q. destruct (Z.eq_dec q lo) as [->|]; [exact M|]. apply IH. lia.
    + intros q Q. replace q with lo by lia. exact M.
  - exists lo. split; [lia|]. split; [now left|]. do 2 (split; [assumption|]). do 2 (split; [reflexivity|]). split; [exact M|]. intros; lia.
Qed.

Lemma all_f : forall fuel first last R lo d n k, 0 <= first < 2^32 - 1 -> last < 2^32 -> Fw first last R lo k -> sane R -> fsums d n k ->
  (Z.to_nat (last - lo) < fuel)%nat ->
  exists k', tflush_all fuel false first last k = Some k' /\ q_dups0 k' = d /\ q_lost k' = n /\ q_bck k' = q_bck k /\ q_dups1 k' = q_dups1 k.
Proof.
  induction fuel as [|fuel IH]; intros first last R lo d n k F0 LB F SA SU FU; [lia|]. cbn [StatsTW_Model.tflush_all tbuffer].
  pose proof F as (NE & _). destruct (tb_list (q_fwd k)) as [|p rest] eqn:BL; [now destruct NE|].
  destruct (flush_f first last R lo d n k F0 LB F SA SU) as (k1 & B1 & B3 & B4 & B5 & B6 & B7). rewrite B1.
  destruct (Z.ltb_spec (lo + 1) last) as [LL|LL].
  - destruct B7 as (F1 & T1). destruct (IH first last R (lo + 1) d n k1 F0 LB F1 SA B6 ltac:(lia)) as (k' & A1 & A2 & A3 & A4 & A5).
    exists k'. split; [exact A1|]. do 2 (split; [assumption|]). split; congruence.
  - exists k1. split; [reflexivity|]. destruct B6 as (U1 & U2). rewrite B7 in U1, U2. cbn [tdups tlosts] in U1, U2. split; [lia|]. split; [lia|]. auto.
Qed.

(** flushing the second buffer; it never fails while there is another node *)
Lemma flush_b : forall first last R lo e k, Bk first R lo k -> bsums e k -> 2 <= blen k ->
  exists k', tbegin_flush true first last k = Some (true, k') /\ Bk first R (lo + 1) k' /\ bsums e k' /\ lo + 1 + blen k' = lo + blen k /\
    q_fwd k' = q_fwd k /\ q_gen k' = q_gen k /\ q_endnum k' = q_endnum k /\ q_dups0 k' = q_dups0 k /\ q_lost k' = q_lost k.
Proof.
  intros first last R lo e k (NE & RN & L0 & IC & ND & AB) U L2. unfold StatsTW_Model.tbegin_flush. cbn [tbuffer].
  unfold blen in *. destruct (tb_list (q_bck k)) as [|p rest] eqn:BL; [now destruct NE|].
  apply Forall_cons_iff in ND. destruct ND as ((P1 & P2 & P3) & NR). rewrite P2. cbn [andb]. unfold bsums in U. rewrite BL in U. cbn [tdups length] in *.
  destruct rest as [|y rest]; [cbn [length] in L2; lia|].
  match goal with |- context[tset_buf true _ ?kk] => set (k1 := kk) end.
  assert (K1: q_fwd k1 = q_fwd k /\ q_bck k1 = q_bck k /\ q_gen k1 = q_gen k /\ q_endnum k1 = q_endnum k /\
     q_dups0 k1 = q_dups0 k /\ q_lost k1 = q_lost k /\ q_dups1 k1 = q_dups1 k + Z.max 0 (n_seen p - 1)).
  { pose proof (tw_count_pos (fun r => reply r =? n_seq p) (replies R)). unfold k1. destruct (Z.eqb_spec (n_seen p) 0) as [->|SZ];
      cbn [q_fwd q_bck q_gen q_endnum q_dups1 q_dups0 q_lost]; repeat (split; [reflexivity|]); lia. }
  clearbody k1. destruct K1 as (K1 & K2 & K3 & K4 & K5 & K6 & K7). eexists. split; [reflexivity|].
  unfold Bk, bsums, blen. cbn [tset_buf q_fwd q_bck q_gen q_endnum q_dups1 q_dups0 q_lost tbuffer tfree tb_list tb_isctx]. rewrite K2.
  split. { split; [discriminate|]. split; [eapply trun_tail; eauto|]. split; [lia|]. split; [lia|]. split; [exact NR|].
    intros r I. specialize (AB r I). lia. }
  split; [lia|]. split; [lia|]. auto.
Qed.

Lemma while_b : forall fuel a first last R lo e k, Bk first R lo k -> bsums e k -> a < lo + blen k -> (Z.to_nat (a - lo) < fuel)%nat ->
  exists k', tflush_while fuel true (fun n => n_seq n <? a) first last k = MGo k' /\ Bk first R (Z.max lo a) k' /\ bsums e k' /\ Z.max lo a + blen k' = lo + blen k /\
    q_fwd k' = q_fwd k /\ q_gen k' = q_gen k /\ q_endnum k' = q_endnum k /\ q_dups0 k' = q_dups0 k /\ q_lost k' = q_lost k.
Proof.
  induction fuel as [|fuel IH]; intros a first last R lo e k B U AL FU; [lia|].
  cbn [StatsTW_Model.tflush_while tbuffer]. pose proof B as (NE & RN & _). destruct (tb_list (q_bck k)) as [|p rest] eqn:BL; [now destruct NE|].
  rewrite (trun_head _ _ _ RN). destruct (Z.ltb_spec lo a) as [LA|LA].
  - destruct (flush_b first last R lo e k B U ltac:(lia)) as (k1 & G & B1 & U1 & L1 & M1 & M2 & M3 & M4 & M5). rewrite G.
    destruct (IH a first last R (lo + 1) e k1 B1 U1 ltac:(lia) ltac:(lia)) as (k' & G' & B' & U' & L' & N1 & N2 & N3 & N4 & N5).
    replace (Z.max (lo + 1) a) with (Z.max lo a) in * by lia. exists k'. split; [exact G'|]. split; [exact B'|]. split; [exact U'|]. split; [lia|]. repeat split; congruence.
  - exists k. replace (Z.max lo a) with lo by lia. auto 20.
Qed.

Lemma sync_b : forall first last R lo lob e d n k, 0 <= first -> Fw first last R lo k -> fsums d n k -> Bk first R lob k -> bsums e k ->
  exists k' lob', tsync first last k = MGo k' /\ Fw first last R lo k' /\ fsums d n k' /\ Bk first R lob' k' /\ bsums e k' /\
    (lob' = lob \/ (lob < lob' /\ assoc_of (replies R) lo lob')) /\ lob' + blen k' = lob + blen k.
Proof.
  intros first last R lo lob e d n k F0 F SU B U. unfold StatsTW_Model.tsync. pose proof F as (NE & RN & _ & _ & _ & _ & _ & ND & _).
  pose proof B as (NB & RB & LB0 & _ & _ & AB). destruct (tb_list (q_fwd k)) as [|p rest] eqn:FL; [now destruct NE|].
  destruct (tb_list (q_bck k)) as [|b restb] eqn:BL; [now destruct NB|].
  apply Forall_cons_iff in ND. destruct ND as ((_ & _ & _ & P4 & _) & _). rewrite (trun_head _ _ _ RN) in P4. rewrite (trun_head _ _ _ RB).
  assert (AL: n_assoc p < lob + blen k).
  { destruct P4 as [->|(r & I & _ & <-)]; [|now apply AB]. unfold blen. rewrite BL. cbn [length]. lia. }
  destruct (while_b (S (Z.to_nat (n_assoc p - lob))) (n_assoc p) first last R lob e k B U AL ltac:(lia)) as (k' & G & B' & U' & L' & M1 & M2 & M3 & M4 & M5).
  exists k', (Z.max lob (n_assoc p)). split; [exact G|].
  split. { unfold Fw, flen in *. rewrite M1, M2, M3. exact F. }
  split. { unfold fsums in *. rewrite M1, M4, M5. exact SU. }
  split; [exact B'|]. split; [exact U'|].
  split; [|exact L'].
  destruct (Z.le_gt_cases (n_assoc p) lob) as [X|X]; [left; lia|right]. split; [lia|]. replace (Z.max lob (n_assoc p)) with (n_assoc p) by lia. exact P4.
Qed.

(** at the end the second buffer is flushed, and extended to the end of the range if it is not that long *)
Lemma all_b : forall fuel first last R lo e k, 0 <= first -> last < 2^32 -> Bk first R lo k -> bsums e k -> lo + blen k <= 2^32 ->
  (Z.to_nat (Z.max (lo + blen k) last - lo) < fuel)%nat ->
  exists k', tflush_all fuel true first last k = Some k' /\ q_dups1 k' = e /\ q_dups0 k' = q_dups0 k /\ q_lost k' = q_lost k.
Proof.
  induction fuel as [|fuel IH]; intros first last R lo e k F0 LB B U TB FU; [lia|]. cbn [StatsTW_Model.tflush_all tbuffer].
  pose proof B as (NB & RB & LB0 & IC & ND & AB). destruct (tb_list (q_bck k)) as [|p rest] eqn:BL; [now destruct NB|].
  destruct rest as [|y rest].
  - assert (L1: blen k = 1) by (unfold blen; rewrite BL; reflexivity).
    unfold StatsTW_Model.tbegin_flush. cbn [tbuffer]. rewrite BL. apply Forall_cons_iff in ND. destruct ND as ((P1 & P2 & P3) & _). rewrite P2. cbn [andb].
    rewrite (trun_head _ _ _ RB). unfold bsums in U. rewrite BL in U. cbn [tdups] in U.
    match goal with |- context[tpacket_get true first last _ ?kk] => set (k1 := kk) end.
    assert (K1: q_fwd k1 = q_fwd k /\ q_bck k1 = q_bck k /\ q_dups0 k1 = q_dups0 k /\ q_lost k1 = q_lost k /\ q_dups1 k1 = q_dups1 k + Z.max 0 (n_seen p - 1)).
    { pose proof (tw_count_pos (fun r => reply r =? n_seq p) (replies R)). unfold k1. destruct (Z.eqb_spec (n_seen p) 0) as [->|SZ];
        cbn [q_fwd q_bck q_dups1 q_dups0 q_lost]; repeat (split; [reflexivity|]); lia. }
    clearbody k1. destruct K1 as (K1 & K2 & K5 & K6 & K7).
    destruct (Z.ltb_spec (u32 (lo + 1)) last) as [LL|LL].
    + destruct (Z.eq_dec (lo + 1) (2^32)) as [E|E].
      * rewrite E in *. change (u32 (2^32)) with 0 in *.
        assert (B1: Bk first R lo k1). { unfold Bk, blen in *. rewrite K2. exact B. }
        pose proof (get_b first last R lo (e + Z.max 0 (n_seen p - 1)) k1 0 B1) as G. replace (0 <? lo) with true in G by lia.
        rewrite G by (unfold bsums; rewrite K2, BL, K7; cbn [tdups]; lia). destruct fuel as [|fuel]; [lia|]. cbn [StatsTW_Model.tflush_all].
        eexists. split; [reflexivity|]. cbn [tset_buf q_dups1 q_dups0 q_lost]. split; [lia|auto].
      * rewrite u32_small in * by lia.
        assert (B1: Bk first R lo k1). { unfold Bk, blen in *. rewrite K2. exact B. }
        pose proof (get_b first last R lo (e + Z.max 0 (n_seen p - 1)) k1 (lo + 1) B1) as G. replace (lo + 1 <? lo) with false in G by lia.
        destruct G as (k2 & x & G & B2 & U2 & M1 & M2 & M3 & M4 & M5 & M6 & T1 & T2 & NT & XS & HD). { unfold bsums; rewrite K2, BL, K7; cbn [tdups]; lia. }
        rewrite G. destruct (HD p []) as (rest' & BL2); [rewrite K2; exact BL|]. cbn [tl tbuffer].
        set (k3 := tset_buf true _ k2). destruct B2 as (NB2 & RB2 & _ & IC2 & ND2 & AB2). unfold bsums in U2.
        assert (BB: blen k1 = 1) by (unfold blen; rewrite K2, BL; reflexivity).
        assert (B3L: tb_list (q_bck k3) = rest') by (unfold k3; cbn [tset_buf q_bck tfree tb_list]; rewrite BL2; reflexivity).
        rewrite BL2 in *. cbn [tdups] in U2. apply Forall_cons_iff in ND2. destruct ND2 as (_ & ND2).
        assert (B3: blen k2 = 1 + blen k3) by (unfold blen; rewrite BL2, B3L; cbn [length]; lia).
        assert (BK3: Bk first R (lo + 1) k3).
        { unfold Bk. rewrite B3L. split; [intros Z0; assert (blen k3 = 0) by (unfold blen; rewrite B3L, Z0; reflexivity); lia|]. split; [eapply trun_tail; eauto|]. split; [lia|].
          split; [change (tb_isctx (q_bck k3)) with (tb_isctx (q_bck k2)); lia|]. split; [exact ND2|]. intros r I. specialize (AB2 r I). lia. }
        destruct (IH first last R (lo + 1) e k3 F0 LB BK3) as (k' & G' & D1 & D2 & D3).
        { unfold bsums. rewrite B3L. unfold k3. cbn [tset_buf q_dups1]. lia. }
        { lia. } { lia. }
        exists k'. split; [exact G'|]. unfold k3 in D2, D3. cbn [tset_buf q_dups0 q_lost] in D2, D3. split; [exact D1|]. split; congruence.
    + eexists. split; [reflexivity|]. cbn [tset_buf q_dups1 q_dups0 q_lost]. split; [lia|auto].
  - destruct (flush_b first last R lo e k B U) as (k1 & G & B1 & U1 & L1 & M1 & M2 & M3 & M4 & M5). { unfold blen. rewrite BL. cbn [length]. lia. }
    assert (L2: 2 <= blen k) by (unfold blen; rewrite BL; cbn [length]; lia).
    rewrite G. destruct (IH first last R (lo + 1) e k1 F0 LB B1 U1 ltac:(lia) ltac:(lia)) as (k' & G' & D1 & D2 & D3).
    exists k'. split; [exact G'|]. split; [exact D1|]. split; congruence.
Qed.
End Inv.
