(** Proofs about the statistics of one-way sessions. *)
From Coq Require Import ZArith List Bool Lia ZifyBool ZifyNat Arith Permutation.
From Verif Require Import Base BaseLemmas Arith_Model Time_Model Wire_Model Wire_Spec File_Model File_Spec Sender_Spec Receiver_Spec Stats_Model Stats_Spec.
Import ListNotations.
Open Scope Z_scope.
Ltac Zify.zify_post_hook ::= Z.div_mod_to_equations.

(** ** Lists *)
Lemma filter_snoc : forall A (f : A -> bool) l x, filter f (l ++ [x]) = filter f l ++ (if f x then [x] else []).
Proof. intros. rewrite filter_app. reflexivity. Qed.
Lemma distinct_perm : forall l l', (forall x, In x (map r_seq l) <-> In x (map r_seq l')) -> distinct l = distinct l'.
Proof.
  intros l l' E. unfold distinct. f_equal. apply Permutation_length. apply NoDup_Permutation; try apply NoDup_nodup.
  intros x. rewrite !nodup_In. apply E.
Qed.
Lemma distinct_snoc : forall l r, distinct (l ++ [r]) = distinct l + (if in_dec Z.eq_dec (r_seq r) (map r_seq l) then 0 else 1).
Proof.
  intros l r. rewrite (distinct_perm (l ++ [r]) (r :: l)).
  - unfold distinct. cbn [map nodup]. destruct (in_dec _ _ _); cbn [length]; lia.
  - intros x. rewrite map_app, in_app_iff. cbn. tauto.
Qed.
Lemma first_copies_snoc : forall l before r, first_copies before (l ++ [r]) =
  first_copies before l ++ (if in_dec Z.eq_dec (r_seq r) (before ++ map r_seq l) then [] else [r]).
Proof.
  induction l as [|x l IH]; intros before r; cbn [app first_copies map].
  - rewrite app_nil_r. destruct (in_dec _ _ _); reflexivity.
  - assert (DEC: forall (a b : list Z) (y z : list datarec), (In (r_seq r) a <-> In (r_seq r) b) ->
      (if in_dec Z.eq_dec (r_seq r) a then y else z) = (if in_dec Z.eq_dec (r_seq r) b then y else z)).
    { intros a b y z E. destruct (in_dec Z.eq_dec (r_seq r) a), (in_dec Z.eq_dec (r_seq r) b); auto; tauto. }
    destruct (in_dec Z.eq_dec (r_seq x) before) as [I|I]; rewrite IH; cbn [app].
    + f_equal. apply DEC. rewrite !in_app_iff. cbn [In]. split; [tauto|]. intros [K|[K|K]]; auto. left. now rewrite <- K.
    + do 2 f_equal. apply DEC. cbn [app In]. rewrite !in_app_iff. cbn [In]. tauto.
Qed.
Lemma reordered_snoc : forall n l prev x, reordered_from n prev (l ++ [x]) = reordered_from n prev l + (if behind_larger n x (rev l ++ prev) then 1 else 0).
Proof.
  induction l as [|y l IH]; intros prev x; cbn [app reordered_from rev]; [lia|]. rewrite IH, <- app_assoc. cbn [app]. lia.
Qed.
Lemma lost_of_snoc : forall q l r, lost_of q (l ++ [r]) = (lost_of q l + (if ((r_seq r =? q)%Z && is_lost r)%bool then 1 else 0))%nat.
Proof. intros. unfold lost_of. rewrite filter_snoc, app_length. destruct (_ && _); reflexivity. Qed.
Lemma received_of_snoc : forall q l r, received_of q (l ++ [r]) = (received_of q l + (if ((r_seq r =? q)%Z && negb (is_lost r))%bool then 1 else 0))%nat.
Proof. intros. unfold received_of. rewrite filter_snoc, app_length. destruct (_ && _); reflexivity. Qed.
Lemma received_in : forall q l, (0 < received_of q l)%nat <-> In q (map r_seq (arrived l)).
Proof.
  intros q l. unfold received_of, arrived. rewrite in_map_iff. split.
  - intros X. destruct (filter _ l) as [|r t] eqn:E; [cbn in X; lia|]. exists r.
    assert (I: In r (filter (fun r => (r_seq r =? q) && negb (is_lost r)) l)) by (rewrite E; now left).
    apply filter_In in I. destruct I as (I1 & I2). apply andb_true_iff in I2. rewrite filter_In. split; [lia|]. tauto.
  - intros (r & S & I). apply filter_In in I. destruct I as (I1 & I2).
    assert (J: In r (filter (fun r => (r_seq r =? q) && negb (is_lost r)) l)) by (apply filter_In; split; [exact I1|rewrite I2; lia]).
    destruct (filter (fun r => (r_seq r =? q) && negb (is_lost r)) l); [contradiction|cbn; lia].
Qed.
Lemma lost_in : forall q l, (0 < lost_of q l)%nat <-> In q (map r_seq (lost l)).
Proof.
  intros q l. unfold lost_of, lost. rewrite in_map_iff. split.
  - intros X. destruct (filter _ l) as [|r t] eqn:E; [cbn in X; lia|]. exists r.
    assert (I: In r (filter (fun r => (r_seq r =? q) && is_lost r) l)) by (rewrite E; now left).
    apply filter_In in I. destruct I as (I1 & I2). apply andb_true_iff in I2. rewrite filter_In. split; [lia|]. tauto.
  - intros (r & S & I). apply filter_In in I. destruct I as (I1 & I2).
    assert (J: In r (filter (fun r => (r_seq r =? q) && is_lost r) l)) by (apply filter_In; split; [exact I1|rewrite I2; lia]).
    destruct (filter (fun r => (r_seq r =? q) && is_lost r) l); [contradiction|cbn; lia].
Qed.

Lemma nth_error_snoc : forall A (l : list A) x i y, nth_error (l ++ [x]) i = Some y -> nth_error l i = Some y \/ (i = length l /\ y = x).
Proof.
  intros A l x i y N. destruct (Nat.lt_ge_cases i (length l)) as [L|L]; [left; now rewrite nth_error_app1 in N|].
  rewrite nth_error_app2 in N by lia. destruct (i - length l)%nat as [|[|k]] eqn:E; cbn in N; try discriminate. right. split; [lia|congruence].
Qed.

Lemma none_above : forall R q, (forall r, In r R -> r_seq r < q) -> received_of q R = 0%nat /\ lost_of q R = 0%nat.
Proof.
  intros R q A. split.
  - destruct (received_of q R) eqn:E; [reflexivity|]. assert (I: In q (map r_seq (arrived R))) by (apply received_in; lia).
    apply in_map_iff in I. destruct I as (r & <- & I). apply filter_In in I. destruct I as (I & _). specialize (A r I). lia.
  - destruct (lost_of q R) eqn:E; [reflexivity|]. assert (I: In q (map r_seq (lost R))) by (apply lost_in; lia).
    apply in_map_iff in I. destruct I as (r & <- & I). apply filter_In in I. destruct I as (I & _). specialize (A r I). lia.
Qed.

(** consecutive nodes from [lo] on *)
Definition run (lo : Z) (l : list pkt) : Prop := forall i p, nth_error l i = Some p -> k_seq p = lo + Z.of_nat i.
Lemma last_cons : forall A (l : list A) x p, last (x :: l) p = last l x.
Proof. induction l as [|y l IH]; intros x p; [reflexivity|]. change (last (x :: y :: l) p) with (last (y :: l) p). now rewrite !IH. Qed.
Lemma nth_error_last : forall A (l : list A) p, nth_error (p :: l) (length l) = Some (last l p).
Proof.
  induction l as [|x l IH]; intros p; [reflexivity|]. rewrite last_cons. exact (IH x).
Qed.
Lemma run_end : forall lo l d c, run lo l -> l <> [] -> end_seq (mkBuf l d c) = Some (lo + Z.of_nat (length l) - 1).
Proof.
  intros lo [|p l] d c R NE; [now destruct NE|]. unfold end_seq. cbn [b_list]. rewrite (R _ _ (nth_error_last _ l p)). cbn [length]. f_equal. lia.
Qed.
Lemma run_find : forall lo l q, run lo l -> lo <= q < lo + Z.of_nat (length l) ->
  exists p, find (fun p => k_seq p =? q) l = Some p /\ nth_error l (Z.to_nat (q - lo)) = Some p /\ k_seq p = q.
Proof.
  intros lo l. revert lo. induction l as [|x l IH]; intros lo q R Q; [cbn in Q; lia|].
  pose proof (R 0%nat x eq_refl) as X. cbn [find]. destruct (Z.eqb_spec (k_seq x) q) as [E|E].
  - exists x. split; [reflexivity|]. replace (q - lo) with 0 by lia. auto.
  - destruct (IH (lo + 1) q) as (p & A & B & C).
    + intros i p N. rewrite (R (S i) p N). lia.
    + cbn [length] in Q. lia.
    + exists p. split; [exact A|]. split; [|exact C]. replace (Z.to_nat (q - lo)) with (S (Z.to_nat (q - (lo + 1)))) by lia. exact B.
Qed.
Lemma run_tail : forall lo p l, run lo (p :: l) -> run (lo + 1) l.
Proof. intros lo p l R i x N. rewrite (R (S i) x N). lia. Qed.
Lemma run_snoc : forall lo l x, run lo l -> k_seq x = lo + Z.of_nat (length l) -> run lo (l ++ [x]).
Proof. intros lo l x R X i p N. destruct (nth_error_snoc _ _ _ _ _ N) as [A|(-> & ->)]; auto. Qed.

(** ** The packet buffers *)
Section Proofs.
Context {start : Z} {skips : list skiprec} {delta : nat -> Z}.
Notation grow := (grow delta).
Notation packet_get := (packet_get delta).
Notation begin_flush := (begin_flush delta).
Notation flush_while := (flush_while delta).
Notation flush_all := (flush_all delta).
Notation sch := (sched_stamp start delta).

Lemma sch_next : forall n, OWPNum64Add (sch (Z.of_nat n)) (delta (S n)) = sch (Z.of_nat (S n)).
Proof.
  intros n. unfold OWPNum64Add, sched_stamp, u64. rewrite !Nat2Z.id. cbn [total]. change M64 with (2^64).
  rewrite Z.add_assoc. rewrite Zplus_mod_idemp_l. reflexivity.
Qed.

(** what the flushed and the buffered nodes count *)
Fixpoint dsum (l : list pkt) : Z := match l with [] => 0 | p :: r => Z.max 0 (k_seen p - 1) + dsum r end.
Fixpoint lsum (l : list pkt) : Z := match l with [] => 0 | p :: r => (if k_lost p then 1 else 0) + lsum r end.
Lemma dsum_app : forall a b, dsum (a ++ b) = dsum a + dsum b.
Proof. induction a as [|x a IH]; intros b; cbn [app dsum]; [lia|]. rewrite IH. lia. Qed.
Lemma lsum_app : forall a b, lsum (a ++ b) = lsum a + lsum b.
Proof. induction a as [|x a IH]; intros b; cbn [app lsum]; [lia|]. rewrite IH. lia. Qed.

(** the counted records: none of packets that were not sent, no packet both lost and received *)
Definition counted (R : list datarec) : Prop :=
  (forall r, In r R -> not_sent skips (r_seq r) = false) /\ (forall q, lost_of q R = 0 \/ received_of q R = 0)%nat.
Definition node_ok (R : list datarec) (p : pkt) : Prop :=
  k_time p = sch (k_seq p) /\ k_seen p = Z.of_nat (received_of (k_seq p) R) /\ k_lost p = (0 <? lost_of (k_seq p) R)%nat.
Definition same (k k' : pk) : Prop :=
  p_bck k' = p_bck k /\ p_skips k' = p_skips k /\ p_lost k' = p_lost k /\ p_dups0 k' = p_dups0 k /\ p_dups1 k' = p_dups1 k /\ p_end_time k' = p_end_time k.
Definition skips_ok (lo : Z) (k : pk) : Prop :=
  (forall s, In s (p_skips k) -> In s skips) /\ (forall s, In s skips -> In s (p_skips k) \/ sk_end s < lo).
Definition top (lo : Z) (k : pk) : Z := lo + Z.of_nat (length (b_list (p_fwd k))) - 1.
Definition fwd (first last : Z) (R : list datarec) (lo : Z) (k : pk) : Prop :=
  b_list (p_fwd k) <> [] /\ run lo (b_list (p_fwd k)) /\ first <= lo /\ top lo k <= Z.max first (last - 1) /\
  b_isctx (p_fwd k) = top lo k + 1 /\ p_gen k = Z.to_nat (top lo k + 1) /\ p_endnum k = sch (top lo k) /\
  Forall (node_ok R) (b_list (p_fwd k)) /\ (forall r, In r R -> r_seq r <= top lo k).
(** [d] duplicates, [n] lost packets *)
Definition sums (d n : Z) (k : pk) : Prop := p_dups0 k + dsum (b_list (p_fwd k)) = d /\ p_lost k + lsum (b_list (p_fwd k)) = n.
(** no nodes left *)
Definition emptied (k : pk) : Prop :=
  p_fwd k = mkBuf [] (Some 0) (b_isctx (p_fwd k)) /\ 0 < b_isctx (p_fwd k) /\ p_gen k = Z.to_nat (b_isctx (p_fwd k)) /\ p_endnum k = sch (b_isctx (p_fwd k) - 1).

Lemma fwd_end : forall first last R lo k, fwd first last R lo k -> end_seq (p_fwd k) = Some (top lo k).
Proof using. intros first last R lo k (NE & RN & _). destruct (p_fwd k) as [l e c] eqn:E. unfold top. rewrite E. cbn [b_list] in *. now apply run_end. Qed.
Lemma grow_fwd : forall n first last R lo d m k, 0 <= first -> fwd first last R lo k -> sums d m k -> top lo k + Z.of_nat n <= Z.max first (last - 1) ->
  (n = 0%nat \/ first < last) ->
  exists k', grow n false last k = Some k' /\ fwd first last R lo k' /\ sums d m k' /\ top lo k' = top lo k + Z.of_nat n /\ same k k'.
Proof using.
  induction n as [|n IH]; intros first last R lo d m k F0 F SU T NZ.
  - exists k. cbn [Stats_Model.grow]. unfold same. repeat (split; auto). lia.
  - pose proof (fwd_end _ _ _ _ _ F) as E. destruct F as (NE & RN & L0 & L1 & IC & GE & EN & ND & AB).
    assert (T0: 0 <= top lo k). { unfold top in *. destruct (b_list (p_fwd k)); [now destruct NE|cbn [length] in *; lia]. }
    cbn [Stats_Model.grow]. cbn [buf]. rewrite E. rewrite IC. rewrite Z.eqb_refl. cbn [negb].
    unfold alloc_ok. cbn [negb andb]. rewrite E.
    replace ((last <? top lo k + 1) || (top lo k + 1 <=? top lo k)) with false by lia. cbn [negb].
    cbn [set_buf p_fwd p_bck p_gen p_endnum p_skips p_lost p_dups0 p_dups1 p_end_time].
    set (x := mkPkt (top lo k + 1) (OWPNum64Add (p_endnum k) (delta (p_gen k))) 0 false).
    match goal with |- context[grow n false last ?kk] => set (k1 := kk) end.
    assert (TK: top lo k1 = top lo k + 1). { unfold top, k1. cbn [p_fwd b_list]. rewrite app_length. cbn [length]. unfold top. lia. }
    assert (EN1: p_endnum k1 = sch (top lo k1)).
    { unfold k1. cbn [p_endnum]. fold k1. rewrite TK, EN, GE.
      rewrite <- (Z2Nat.id (top lo k) T0) at 1.
      replace (Z.to_nat (top lo k + 1)) with (S (Z.to_nat (top lo k))) by lia. rewrite sch_next. f_equal. lia. }
    assert (F1: fwd first last R lo k1).
    { unfold fwd. rewrite TK. unfold k1 at 1 2 3 4. cbn [p_fwd b_list b_isctx p_gen]. split; [destruct (b_list (p_fwd k)); discriminate|].
      split. { apply run_snoc; [exact RN|]. cbn [k_seq x]. unfold top. lia. }
      split; [exact L0|]. split; [lia|]. split; [lia|]. split; [lia|]. split; [rewrite EN1; f_equal; lia|].
      split.
      { unfold k1. cbn [p_fwd b_list]. apply Forall_app. split; [exact ND|]. constructor; [|constructor].
        destruct (none_above R (top lo k + 1)) as (Z1 & Z2). { intros r I. specialize (AB r I). lia. }
        unfold node_ok. cbn [x k_time k_seq k_seen k_lost]. rewrite Z1, Z2. split; [|split; reflexivity]. rewrite <- TK, <- EN1. reflexivity. }
      intros r I. specialize (AB r I). lia. }
    assert (S1: sums d m k1).
    { destruct SU as (S1 & S2). unfold sums, k1. cbn [p_dups0 p_lost p_fwd b_list]. rewrite dsum_app, lsum_app. cbn [dsum lsum x k_seen k_lost]. lia. }
    destruct (IH first last R lo d m k1 F0 F1 S1) as (k' & G & F' & S' & T' & SM).
    { lia. } { right. lia. }
    exists k'. split; [exact G|]. split; [exact F'|]. split; [exact S'|]. split; [lia|]. exact SM.
Qed.

Lemma get_fwd : forall first last R lo d m k q, 0 <= first -> fwd first last R lo k -> sums d m k -> first <= q < last ->
  if q <? lo then packet_get false first last q k = GNull
  else exists k' p, packet_get false first last q k = GNode k' p /\ fwd first last R lo k' /\ sums d m k' /\ top lo k' = Z.max (top lo k) q /\ same k k' /\
         nth_error (b_list (p_fwd k')) (Z.to_nat (q - lo)) = Some p /\ k_seq p = q.
Proof using.
  intros first last R lo d m k q F0 F SU Q. pose proof (fwd_end _ _ _ _ _ F) as E. pose proof F as (NE & RN & L0 & L1 & _).
  unfold Stats_Model.packet_get. cbn [buf]. rewrite E. destruct (b_list (p_fwd k)) as [|b t] eqn:BL; [now destruct NE|].
  pose proof (RN 0%nat b eq_refl) as B. replace (lo + Z.of_nat 0) with lo in B by lia.
  assert (TP: lo <= top lo k). { unfold top. rewrite BL. cbn [length]. lia. }
  assert (FE: forall k', fwd first last R lo k' -> sums d m k' -> same k k' -> lo <= q <= top lo k' -> top lo k' = Z.max (top lo k) q ->
     exists k'' p, fetch false q k' = GNode k'' p /\ fwd first last R lo k'' /\ sums d m k'' /\ top lo k'' = Z.max (top lo k) q /\ same k k'' /\
         nth_error (b_list (p_fwd k'')) (Z.to_nat (q - lo)) = Some p /\ k_seq p = q).
  { intros k' F' S' SM X TE. pose proof F' as (_ & RN' & _). destruct (run_find lo (b_list (p_fwd k')) q RN') as (p & P1 & P2 & P3).
    - unfold top in X. lia.
    - exists k', p. unfold fetch. cbn [buf]. rewrite P1. auto 10. }
  assert (SK: same k k) by (unfold same; auto 10).
  destruct (Z.eqb_spec q (top lo k)) as [Q1|Q1].
  - replace (q <? lo) with false by lia. apply FE; auto; lia.
  - replace ((q <? first) || (negb false && (last <? q))) with false by (cbn [negb andb]; lia).
    destruct (Z.ltb_spec (top lo k) q) as [Q2|Q2].
    + replace (q <? lo) with false by lia.
      destruct (grow_fwd (Z.to_nat (q - top lo k)) first last R lo d m k F0 F SU) as (k' & G & F' & S' & T' & SM).
      { lia. } { right; lia. }
      rewrite G. apply FE; auto; lia.
    + rewrite B. destruct (Z.ltb_spec q lo) as [Q3|Q3]; [reflexivity|]. apply FE; auto; lia.
Qed.

Lemma skip_advance_ok : forall q l, (forall s, In s (skip_advance q l) -> In s l) /\ (forall s, In s l -> In s (skip_advance q l) \/ sk_end s < q) /\
  match skip_advance q l with s :: _ => q <= sk_end s | [] => True end.
Proof using.
  intros q. induction l as [|s l (A & B & C)]; cbn [skip_advance]; [auto|].
  destruct (Z.ltb_spec (sk_end s) q) as [X|X].
  - split; [intros u I; right; auto|]. split; [|exact C]. intros u [<-|I]; auto.
  - auto.
Qed.

Lemma flush_fwd : forall first last R lo d m k, 0 <= first -> fwd first last R lo k -> counted R -> sums d m k -> skips_ok lo k ->
  exists k', begin_flush false first last k = Some (lo + 1 <? last, k') /\ skips_ok (lo + 1) k' /\ p_bck k' = p_bck k /\ p_dups1 k' = p_dups1 k /\
    p_end_time k' = sch lo /\ sums d m k' /\
    if lo + 1 <? last then fwd first last R (lo + 1) k' /\ top (lo + 1) k' = Z.max (top lo k) (lo + 1)
    else emptied k' /\ b_isctx (p_fwd k') = top lo k + 1.
Proof using.
  intros first last R lo d m k F0 F (C1 & C2) SU (SK1 & SK2). pose proof (fwd_end _ _ _ _ _ F) as E.
  pose proof F as (NE & RN & L0 & L1 & IC & GE & EN & ND & AB). unfold Stats_Model.begin_flush. cbn [buf].
  destruct (b_list (p_fwd k)) as [|n rest] eqn:BL; [now destruct NE|].
  pose proof (RN 0%nat n eq_refl) as N. replace (lo + Z.of_nat 0) with lo in N by lia. rewrite N.
  pose proof (skip_advance_ok lo (p_skips k)) as (A1 & A2 & A3). set (sk := skip_advance lo (p_skips k)) in *.
  set (skipped := match sk with s :: _ => sk_begin s <=? lo | [] => false end).
  rewrite andb_false_r.
  match goal with |- context[if skipped then ?a else ?b] => set (k1 := if skipped then a else b) end.
  apply Forall_cons_iff in ND. destruct ND as ((N1 & N2 & N3) & NR). rewrite N in N1, N2, N3.
  assert (EMPTY: skipped = true -> k_seen n = 0 /\ k_lost n = false).
  { intros SKP. unfold skipped in SKP. destruct sk as [|s sk'] eqn:SE; [discriminate|].
    assert (NS: not_sent skips lo = true).
    { apply existsb_exists. exists s. split; [|lia]. apply SK1, A1. now left. }
    assert (NO: forall r, In r R -> r_seq r <> lo) by (intros r I X; rewrite <- X in NS; rewrite (C1 r I) in NS; discriminate).
    rewrite N2, N3. split.
    - destruct (received_of lo R) eqn:X; [reflexivity|]. assert (I: In lo (map r_seq (arrived R))) by (apply received_in; lia).
      apply in_map_iff in I. destruct I as (r & X1 & I). apply filter_In in I. destruct I as (I & _). destruct (NO r I X1).
    - destruct (lost_of lo R) eqn:X; [reflexivity|]. assert (I: In lo (map r_seq (lost R))) by (apply lost_in; lia).
      apply in_map_iff in I. destruct I as (r & X1 & I). apply filter_In in I. destruct I as (I & _). destruct (NO r I X1). }
  assert (K1: p_fwd k1 = p_fwd k /\ p_bck k1 = p_bck k /\ p_gen k1 = p_gen k /\ p_endnum k1 = p_endnum k /\ p_skips k1 = sk /\
     p_dups1 k1 = p_dups1 k /\ p_end_time k1 = sch lo /\
     p_dups0 k1 = p_dups0 k + Z.max 0 (k_seen n - 1) /\ p_lost k1 = p_lost k + (if k_lost n then 1 else 0)).
  { unfold k1. destruct skipped; [destruct (EMPTY eq_refl) as (-> & ->)|destruct (k_lost n) eqn:LO; [|destruct (Z.eqb_spec (k_seen n) 0) as [->|SZ]]];
      cbn [p_fwd p_bck p_gen p_endnum p_skips p_dups1 p_end_time p_dups0 p_lost]; repeat (split; [first [reflexivity|exact N1|lia]|]); try lia; try (split; lia).
    destruct (C2 lo) as [X|X]; [rewrite X in N3; discriminate|]. rewrite X in N2. split; lia. }
  clearbody k1. destruct K1 as (K1 & K2 & K3 & K4 & K5 & K6 & K7 & K8 & K9).
  assert (F1: fwd first last R lo k1). { unfold fwd, top. rewrite K1, K3, K4. unfold top in F. exact F. }
  assert (T1: top lo k1 = top lo k) by (unfold top; now rewrite K1).
  assert (S1: sums (d + Z.max 0 (k_seen n - 1)) (m + (if k_lost n then 1 else 0)) k1).
  { destruct SU as (U1 & U2). unfold sums. rewrite K1, K8, K9. lia. }
  assert (SKO: forall k', p_skips k' = sk -> skips_ok (lo + 1) k').
  { intros k' X. unfold skips_ok. rewrite X. split; [auto|]. intros s I. destruct (SK2 s I) as [I'|I']; [|right; lia].
    destruct (A2 s I') as [I2|I2]; [now left|right; lia]. }
  destruct SU as (U1 & U2). rewrite BL in U1, U2. cbn [dsum lsum] in U1, U2.
  destruct rest as [|y rest].
  - assert (TL: top lo k = lo) by (unfold top; rewrite BL; cbn [length]; lia).
    destruct (Z.ltb_spec (lo + 1) last) as [LL|LL].
    + pose proof (get_fwd first last R lo _ _ k1 (lo + 1) F0 F1 S1 ltac:(lia)) as G. replace (lo + 1 <? lo) with false in G by lia.
      destruct G as (k' & p & G & F' & S' & T' & SM & NT & PS). rewrite G. eexists. split; [reflexivity|].
      destruct SM as (M1 & M2 & M3 & M4 & M5 & M6). cbn [set_buf buf p_bck p_dups1 p_end_time]. split; [apply SKO; cbn [p_skips]; congruence|].
      split; [congruence|]. split; [congruence|]. split; [congruence|].
      destruct F' as (NE' & RN' & L0' & L1' & IC' & GE' & EN' & ND' & AB'). destruct S' as (U3 & U4).
      destruct (b_list (p_fwd k')) as [|n' rest'] eqn:BL'; [now destruct NE'|]. cbn [tl].
      pose proof (RN' 0%nat n' eq_refl) as N'. replace (lo + Z.of_nat 0) with lo in N' by lia.
      apply Forall_cons_iff in ND'. destruct ND' as ((N1' & N2' & N3') & NR'). cbn [dsum lsum] in *. rewrite N' in N1', N2', N3'.
      assert (TT: forall b k2, p_fwd k2 = mkBuf rest' b (b_isctx (p_fwd k')) -> top (lo + 1) k2 = top lo k').
      { intros b k2 X. unfold top. rewrite X, BL'. cbn [b_list length]. lia. }
      split. { unfold sums. cbn [p_dups0 p_lost p_fwd b_list]. rewrite N2', N3', <- N2, <- N3 in *. lia. }
      match goal with |- fwd _ _ _ _ ?k2 /\ _ => assert (T2: top (lo + 1) k2 = top lo k') by (eapply TT; cbn [p_fwd]; reflexivity) end.
      split; [|rewrite T2; lia]. unfold fwd. rewrite T2. cbn [p_fwd b_list b_isctx p_gen p_endnum].
      split. { intros X. rewrite X in *. unfold top in T'. rewrite BL' in T'. cbn [length] in T'. lia. }
      split; [eapply run_tail; eauto|]. repeat (split; [first [assumption|lia]|]). assumption.
    + eexists. split; [reflexivity|]. cbn [set_buf buf p_bck p_dups1 p_end_time p_fwd]. split; [apply SKO; cbn [p_skips]; exact K5|].
      repeat (split; [assumption|]). split. { unfold sums. cbn [p_dups0 p_lost p_fwd b_list dsum lsum]. cbn [dsum lsum] in *. lia. }
      unfold emptied. cbn [p_fwd b_isctx p_gen p_endnum]. rewrite K1, K3, K4, IC, GE, EN. split; [|reflexivity]. split; [reflexivity|].
      split; [lia|]. split; [reflexivity|]. f_equal. lia.
  - assert (TL: lo + 1 <= top lo k) by (unfold top; rewrite BL; cbn [length]; lia).
    replace (lo + 1 <? last) with true by lia. eexists. split; [reflexivity|]. cbn [set_buf buf p_bck p_dups1 p_end_time].
    split; [apply SKO; cbn [p_skips]; exact K5|]. repeat (split; [assumption|]).
    split. { unfold sums. cbn [p_dups0 p_lost p_fwd b_list dsum lsum]. cbn [dsum lsum] in *. lia. }
    match goal with |- fwd _ _ _ _ ?k2 /\ _ => assert (T2: top (lo + 1) k2 = top lo k) by (unfold top; rewrite BL; cbn [p_fwd b_list length]; lia) end.
    split; [|rewrite T2; lia]. unfold fwd. rewrite T2. cbn [p_fwd b_list b_isctx p_gen p_endnum]. rewrite K1, K3, K4.
    split; [discriminate|]. split; [eapply run_tail; eauto|]. repeat (split; [first [assumption|lia]|]). assumption.
Qed.

Lemma while_fwd : forall fuel more mq first last R lo d n k, 0 <= first -> fwd first last R lo k -> counted R -> sums d n k -> skips_ok lo k ->
  (forall p, node_ok R p -> more p = mq (k_seq p)) -> (Z.to_nat (last - lo) < fuel)%nat ->
  match flush_while fuel more first last k with
  | LCrash => False
  | LGo k' => exists lo', lo <= lo' /\ (lo' = lo \/ lo' < last) /\ fwd first last R lo' k' /\ sums d n k' /\ skips_ok lo' k' /\ p_bck k' = p_bck k /\
      p_dups1 k' = p_dups1 k /\ mq lo' = false /\ (forall q, lo <= q < lo' -> mq q = true) /\ top lo' k' = Z.max (top lo k) lo'
  | LErr k' => emptied k' /\ p_bck k' = p_bck k /\ (forall q, lo <= q < last -> mq q = true) /\ mq (Z.max lo (last - 1)) = true
  end.
Proof using.
  induction fuel as [|fuel IH]; intros more mq first last R lo d n k F0 F C SU SK MO FU; [lia|].
  cbn [Stats_Model.flush_while]. pose proof F as (NE & RN & L0 & L1 & IC & GE & EN & ND & AB).
  destruct (b_list (p_fwd k)) as [|p rest] eqn:BL; [now destruct NE|].
  pose proof (RN 0%nat p eq_refl) as N. replace (lo + Z.of_nat 0) with lo in N by lia.
  apply Forall_cons_iff in ND. destruct ND as (NP & _). rewrite (MO p NP), N.
  destruct (mq lo) eqn:M.
  - destruct (flush_fwd first last R lo d n k F0 F C SU SK) as (k1 & B1 & B2 & B3 & B4 & B5 & B6 & B7). rewrite B1.
    destruct (Z.ltb_spec (lo + 1) last) as [LL|LL].
    + destruct B7 as (F1 & T1). specialize (IH more mq first last R (lo + 1) d n k1 F0 F1 C B6 B2 MO ltac:(lia)).
      destruct (flush_while fuel more first last k1) as [k2|k2|]; [| |exact IH].
      * destruct IH as (lo' & I1 & I2 & I3 & I4 & I5 & I6 & I7 & I8 & I9 & I10). exists lo'. split; [lia|]. split; [right; lia|].
        do 3 (split; [assumption|]). split; [congruence|]. split; [congruence|]. split; [assumption|]. split; [|lia].
        intros q Q. destruct (Z.eq_dec q lo) as [->|]; [exact M|]. apply I9. lia.
      * destruct IH as (I1 & I2 & I3 & I4). split; [assumption|]. split; [congruence|].
        assert (I3': forall q, lo <= q < last -> mq q = true). { intros q Q. destruct (Z.eq_dec q lo) as [->|]; [exact M|]. apply I3. lia. }
        split; [exact I3'|]. apply I3'. lia.
    + destruct B7 as (E1 & E2). split; [exact E1|]. split; [exact B3|]. split.
      * intros q Q. replace q with lo by lia. exact M.
      * replace (Z.max lo (last - 1)) with lo by lia. exact M.
  - exists lo. split; [lia|]. split; [now left|]. do 3 (split; [assumption|]). do 2 (split; [reflexivity|]). split; [exact M|].
    split; [intros; lia|]. unfold top. rewrite BL. cbn [length]. lia.
Qed.

Lemma all_fwd : forall fuel first last R lo d n k, 0 <= first -> fwd first last R lo k -> counted R -> sums d n k -> skips_ok lo k ->
  (Z.to_nat (last - lo) < fuel)%nat ->
  exists k', flush_all fuel false first last k = Some k' /\ emptied k' /\ p_dups0 k' = d /\ p_lost k' = n /\ p_bck k' = p_bck k /\ p_dups1 k' = p_dups1 k /\
    p_end_time k' = sch (Z.max lo (last - 1)) /\ b_isctx (p_fwd k') = Z.max (top lo k) (last - 1) + 1.
Proof using.
  induction fuel as [|fuel IH]; intros first last R lo d n k F0 F C SU SK FU; [lia|]. cbn [Stats_Model.flush_all].
  destruct (flush_fwd first last R lo d n k F0 F C SU SK) as (k1 & B1 & B2 & B3 & B4 & B5 & B6 & B7). rewrite B1.
  destruct (Z.ltb_spec (lo + 1) last) as [LL|LL].
  - destruct B7 as (F1 & T1). destruct (IH first last R (lo + 1) d n k1 F0 F1 C B6 B2 ltac:(lia)) as (k' & A1 & A2 & A3 & A4 & A5 & A6 & A7 & A8).
    exists k'. split; [exact A1|]. do 3 (split; [assumption|]). split; [congruence|]. split; [congruence|]. split; [rewrite A7; f_equal; lia|lia].
  - exists k1. split; [reflexivity|]. destruct B7 as (E1 & E2). split; [exact E1|]. destruct E1 as (E1 & _). destruct B6 as (U1 & U2).
    rewrite E1 in U1, U2. cbn [b_list dsum lsum] in U1, U2. split; [lia|]. split; [lia|]. do 2 (split; [assumption|]). split; [rewrite B5; f_equal; lia|].
    destruct F as (NE & _). unfold top in *. destruct (b_list (p_fwd k)); [now destruct NE|]. cbn [length] in *. lia.
Qed.

(** the second buffer is not used by one-way sessions *)
Definition bck_ok (lo : Z) (k : pk) : Prop := exists t e, p_bck k = mkBuf [mkPkt lo t 0 false] e (lo + 1).
Lemma flush_bck : forall first last lo k, 0 <= first <= lo -> bck_ok lo k ->
  exists k', begin_flush true first last k = Some (lo + 1 <? last, k') /\ p_fwd k' = p_fwd k /\ p_gen k' = p_gen k /\ p_endnum k' = p_endnum k /\
    p_lost k' = p_lost k /\ p_dups0 k' = p_dups0 k /\ p_dups1 k' = p_dups1 k /\ p_end_time k' = k_time (hd (mkPkt 0 0 0 false) (b_list (p_bck k))) /\
    if lo + 1 <? last then bck_ok (lo + 1) k' /\ k_time (hd (mkPkt 0 0 0 false) (b_list (p_bck k'))) = p_endnum k
    else p_bck k' = mkBuf [] (Some 0) (lo + 1).
Proof using.
  intros first last lo k F (t & e & B). unfold Stats_Model.begin_flush. cbn [buf]. rewrite B. cbn [b_list k_lost k_seen k_seq k_time].
  set (sk := skip_advance lo (p_skips k)). set (skipped := match sk with s :: _ => sk_begin s <=? lo | [] => false end).
  rewrite andb_false_r. cbn [andb Z.eqb]. 
  match goal with |- context[if skipped then ?a else ?b] => set (k1 := if skipped then a else b) end.
  assert (K: k1 = mkPk (p_fwd k) (p_bck k) (p_gen k) (p_endnum k) sk (p_lost k) (p_dups0 k) (p_dups1 k) t) by (unfold k1; rewrite B; destruct skipped; reflexivity).
  clearbody k1. subst k1. cbn [buf p_bck].
  destruct (Z.ltb_spec (lo + 1) last) as [LL|LL].
  - unfold Stats_Model.packet_get, end_seq. cbn [buf p_bck]. rewrite B. cbn [b_list k_seq List.last].
    replace (lo + 1 =? lo) with false by lia. cbn [negb andb]. rewrite orb_false_r. replace (lo + 1 <? first) with false by lia.
    replace (lo <? lo + 1) with true by lia. replace (Z.to_nat (lo + 1 - lo)) with 1%nat by lia. cbn [Stats_Model.grow]. unfold end_seq. cbn [buf p_bck]. rewrite ?B.
    cbn [b_list k_seq List.last b_isctx b_end]. rewrite Z.eqb_refl. cbn [negb]. unfold alloc_ok, end_seq. rewrite ?B. cbn [negb andb orb b_list k_seq List.last].
    replace (lo + 1 <=? lo) with false by lia. cbn [negb]. unfold fetch. cbn [buf set_buf p_bck b_list app find k_seq].
    replace (lo =? lo + 1) with false by lia. rewrite Z.eqb_refl. eexists. split; [reflexivity|].
    cbn [set_buf p_fwd p_bck p_gen p_endnum p_lost p_dups0 p_dups1 p_end_time b_list hd k_time tl b_isctx b_end]. repeat (split; [reflexivity|]).
    split; [|reflexivity]. unfold bck_ok. cbn [p_bck]. eauto.
  - eexists. split; [reflexivity|]. cbn [set_buf p_fwd p_bck p_gen p_endnum p_lost p_dups0 p_dups1 p_end_time]. repeat (split; [reflexivity|]).
    rewrite B. reflexivity.
Qed.
Lemma all_bck : forall fuel first last lo k, 0 <= first <= lo -> bck_ok lo k -> (Z.to_nat (last - lo) < fuel)%nat ->
  exists k', flush_all fuel true first last k = Some k' /\ p_fwd k' = p_fwd k /\ p_gen k' = p_gen k /\ p_endnum k' = p_endnum k /\
    p_lost k' = p_lost k /\ p_dups0 k' = p_dups0 k /\ p_dups1 k' = p_dups1 k /\
    p_end_time k' = (if lo + 1 <? last then p_endnum k else k_time (hd (mkPkt 0 0 0 false) (b_list (p_bck k)))) /\
    p_bck k' = mkBuf [] (Some 0) (Z.max lo (last - 1) + 1).
Proof using.
  induction fuel as [|fuel IH]; intros first last lo k F B FU; [lia|]. cbn [Stats_Model.flush_all].
  destruct (flush_bck first last lo k F B) as (k1 & B0 & B1 & B2 & B3 & B4 & B5 & B6 & B7 & B8). rewrite B0.
  destruct (Z.ltb_spec (lo + 1) last) as [LL|LL].
  - destruct B8 as (B8 & B9). destruct (IH first last (lo + 1) k1 ltac:(lia) B8 ltac:(lia)) as (k' & A0 & A1 & A2 & A3 & A4 & A5 & A6 & A7 & A8).
    exists k'. split; [exact A0|]. repeat (split; [congruence|]). split; [|rewrite A8; do 2 f_equal; lia].
    rewrite A7. destruct (lo + 1 + 1 <? last); congruence.
  - exists k1. repeat (split; [assumption || reflexivity|]). rewrite B8. do 2 f_equal. lia.
Qed.
End Proofs.
