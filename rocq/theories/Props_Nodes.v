(** Property theorems about the records of packets in the memory of a receiver: C145 *)
From Coq Require Import ZArith List Bool Arith Lia ZifyBool ZifyNat.
From Verif Require Import Base BaseLemmas Nodes_Model.
From Coq Require Import Logic.FinFun.
Import ListNotations.
Open Scope Z_scope.

(** ** Specification: the records as a list *)

(** the packets that are waited for are numbered from [lo] on; for each: whether it has arrived *)
Record queue := Queue { lo : Z; hits : list bool }.

Fixpoint sum (delta : nat -> Z) (k : nat) : Z := match k with O => delta 0%nat | S k => sum delta k + delta (S k) end.
(** the time of packet k in the schedule, relative to the start of the session, 32.32 bits *)
Definition time (delta : nat -> Z) (k : nat) : Z := (sum delta k) mod 2^64.

Definition mark (k : nat) (l : list bool) : list bool := firstn k l ++ true :: skipn (S k) l.

Definition reply (np : Z) (delta : nat -> Z) (a : ask) (q : queue) : told * option queue :=
  match a with
  | Arrived s =>
      if s <? lo q then (Unknown, Some q) else
      let k := Z.to_nat (s - lo q) in
      let l := hits q ++ repeat false (S k - length (hits q)) in
      (Packet (nth k l false) (time delta (Z.to_nat s)), Some (Queue (lo q) (mark k l)))
  | Oldest =>
      match hits q with
      | [] => (Failed, None)
      | x :: r => (Removed (lo q) x (time delta (Z.to_nat (lo q))),
                   match r with [] => if lo q + 1 <? np then Some (Queue (lo q + 1) [false]) else None | _ => Some (Queue (lo q + 1) r) end)
      end
  end.
Fixpoint dialogue (np : Z) (delta : nat -> Z) (l : list ask) (q : queue) : list told :=
  match l with
  | [] => []
  | a :: l => match reply np delta a q with (t, Some q) => t :: dialogue np delta l q | (t, None) => [t] end
  end.

(** ** Pointers *)

(** the pointers [l] are linked by [next], from [p] to NULL *)
Fixpoint chain (next : nat -> option nat) (p : option nat) (l : list nat) : Prop :=
  match l with [] => p = None | n :: l => p = Some n /\ chain next (next n) l end.

Lemma chain_ext : forall f g l p, (forall n, In n l -> f n = g n) -> chain f p l -> chain g p l.
Proof.
  intros f g. induction l as [|n l IH]; intros p E C; [exact C|]. cbn [chain] in *. destruct C as (-> & C). split; [reflexivity|].
  rewrite <- E by (left; reflexivity). apply IH; [|exact C]. intros m I. apply E. right. exact I.
Qed.
Lemma upd_other : forall {A} (f : nat -> A) i v j, j <> i -> upd f i v j = f j.
Proof. intros. unfold upd. destruct (Nat.eqb_spec j i); congruence. Qed.
Lemma upd_same : forall {A} (f : nat -> A) i v, upd f i v i = v.
Proof. intros. unfold upd. rewrite Nat.eqb_refl. reflexivity. Qed.
Lemma chain_upd : forall f i v l p, ~ In i l -> chain f p l -> chain (upd f i v) p l.
Proof. intros f i v l p N. apply chain_ext. intros n I. rewrite upd_other; [reflexivity|]. intros ->. exact (N I). Qed.
Lemma chain_snoc : forall next n l x p, chain next p (l ++ [x]) -> ~ In x l -> ~ In n (l ++ [x]) -> next n = None ->
  chain (upd next x (Some n)) p ((l ++ [x]) ++ [n]).
Proof.
  intros next n. induction l as [|y l IH]; intros x p C NX NN E; cbn [app chain] in *.
  - destruct C as (-> & _). split; [reflexivity|]. rewrite upd_same. split; [reflexivity|]. rewrite upd_other by (intros ->; apply NN; left; reflexivity). exact E.
  - destruct C as (-> & C). split; [reflexivity|]. rewrite upd_other by (intros ->; apply NX; left; reflexivity). apply IH; [exact C|intros I; apply NX; right; exact I|intros I; apply NN; right; exact I|exact E].
Qed.
Lemma chain_last : forall next l x p, chain next p (l ++ [x]) -> next x = None.
Proof. intros next. induction l as [|y l IH]; intros x p C; cbn [app chain] in C; [tauto|]. destruct C as (_ & C). eapply IH. exact C. Qed.

Lemma link_free_spec : forall k p h fr, chain (nx h) (freel h) fr -> (forall x, In x fr -> (x < p)%nat) ->
  exists nx' fl', link_free k p h = Heap nx' (sq h) (ht h) (rel h) (top h) fl' (blocks h) (hash h) (first h) (last h) (drawn h) /\
    chain nx' fl' (rev (seq p k) ++ fr) /\ (forall j, (j < p)%nat -> nx' j = nx h j).
Proof.
  induction k as [|k IH]; intros p h fr C B; cbn [link_free seq rev].
  - exists (nx h), (freel h). split; [destruct h; reflexivity|]. split; [exact C|reflexivity].
  - destruct (IH (S p) (set_freel (Some p) (set_nx p (freel h) h)) (p :: fr)) as (nx' & fl' & E & C' & K).
    + cbn [nx freel set_freel set_nx chain]. split; [reflexivity|]. rewrite upd_same. apply chain_upd; [|exact C]. intros I. specialize (B _ I). lia.
    + intros x [<-|I]; [lia|]. specialize (B _ I). lia.
    + exists nx', fl'. cbn [sq ht rel top blocks hash first last drawn set_freel set_nx] in E. split; [exact E|]. split; [rewrite <- app_assoc; exact C'|].
      intros j L. rewrite K by lia. cbn [nx set_freel set_nx]. apply upd_other. lia.
Qed.

Lemma mark_length : forall k l, (k < length l)%nat -> length (mark k l) = length l.
Proof. intros k l L. unfold mark. rewrite app_length, firstn_length. cbn [length]. rewrite skipn_length. lia. Qed.
Lemma mark_nth : forall k l j, (k < length l)%nat -> nth_error (mark k l) j = if Nat.eqb j k then Some true else nth_error l j.
Proof.
  intros k l j L. unfold mark. assert (F : length (firstn k l) = k) by (rewrite firstn_length; lia). destruct (Nat.eqb_spec j k) as [->|N].
  - rewrite nth_error_app2 by lia. rewrite F, Nat.sub_diag. reflexivity.
  - destruct (Nat.lt_ge_cases j k).
    + rewrite nth_error_app1 by lia. rewrite <- (firstn_skipn k l) at 2. rewrite nth_error_app1 by lia. reflexivity.
    + rewrite nth_error_app2 by lia. rewrite F. destruct (j - k)%nat as [|i] eqn:E; [lia|]. cbn [nth_error].
      rewrite <- (firstn_skipn (S k) l) at 2. rewrite nth_error_app2 by (rewrite firstn_length; lia). rewrite firstn_length. f_equal. lia.
Qed.

Section S.
Variable np : Z.
Variable num : nat.
Variable delta : nat -> Z.
Variable m0 : nat.
Hypothesis np_range : 0 < np < 2^32.
Hypothesis num_range : (2 <= num)%nat.
Hypothesis m_range : (2 <= m0)%nat.
Let room (_ : nat) := true.

(** [w]: the records of the queue, [fr]: the free ones, [bs]: the first records of the blocks *)
Record body (h : heap) (q : queue) (w fr bs : list nat) : Prop := Body {
  b_w : chain (nx h) (first h) w;
  b_fr : chain (nx h) (freel h) fr;
  b_bs : chain (nx h) (blocks h) bs;
  b_nodup : NoDup (w ++ fr ++ bs);
  b_top : forall n, In n (w ++ fr ++ bs) -> (n < top h)%nat;
  b_blocks : top h = (length bs * num)%nat /\ bs = rev (map (fun i => (i * num)%nat) (seq 0 (length bs)));
  b_len : length w = length (hits q);
  b_data : forall k n, nth_error w k = Some n -> sq h n = lo q + Z.of_nat k /\ nth_error (hits q) k = Some (ht h n) /\ rel h n = time delta (Z.to_nat (lo q) + k);
  b_hash : forall s n, lookup s (hash h) = Some n <-> exists k, nth_error w k = Some n /\ s = lo q + Z.of_nat k;
  b_drawn : drawn h = (Z.to_nat (lo q) + length w)%nat;
  b_lo : 0 <= lo q /\ lo q + Z.of_nat (length w) <= np;
  b_count : (length w + length fr + length bs = top h)%nat;
  b_mem : ((length bs - 1) * (num - 1) <= m0)%nat /\ (length w <= m0)%nat }.

Lemma nodup_app : forall {A} (a b : list A), NoDup (a ++ b) <-> NoDup a /\ NoDup b /\ (forall x, In x a -> ~ In x b).
Proof.
  intros A. induction a as [|x a IH]; intros b; cbn [app].
  - split; [intros N; repeat split; [constructor|exact N|intros x []]|tauto].
  - split.
    + intros N. inversion N as [|? ? NI N']; subst. apply IH in N'. destruct N' as (N1 & N2 & N3). rewrite in_app_iff in NI. split; [constructor; tauto|]. split; [exact N2|].
      intros y [<-|I]; [tauto|apply N3, I].
    + intros (N1 & N2 & N3). inversion N1 as [|? ? NI N']; subst. constructor.
      * rewrite in_app_iff. intros [I|I]; [tauto|]. exact (N3 x (or_introl eq_refl) I).
      * apply IH. repeat split; auto. intros y I. apply N3. right. exact I.
Qed.

(** ** A free record *)

Lemma grow_body : forall h q w bs, body h q w [] bs ->
  exists nx' fl', grow num h = Heap nx' (sq h) (ht h) (rel h) (top h + num)%nat fl' (Some (top h)) (hash h) (first h) (last h) (drawn h) /\
    body (grow num h) q w (rev (seq (S (top h)) (num - 1))) (top h :: bs).
Proof.
  intros h q w bs B. destruct B as [BW BF BB BN BT (BK1 & BK2) BL BD BH BR BO BC (BM1 & BM2)]. cbn [app] in *.
  unfold grow. destruct (link_free_spec (num - 1) (S (top h))
    (Heap (upd (nx h) (top h) (blocks h)) (sq h) (ht h) (rel h) (top h + num) (freel h) (Some (top h)) (hash h) (first h) (last h) (drawn h)) []) as (nx' & fl' & E & C & K).
  { cbn [chain nx freel]. cbn [chain] in BF. exact BF. }
  { intros x []. }
  rewrite E. exists nx', fl'. cbn [sq ht rel top blocks hash first last drawn nx] in *. split; [reflexivity|]. rewrite app_nil_r in C.
  assert (KK : forall n, In n (w ++ bs) -> nx' n = nx h n) by (intros n I; specialize (BT _ I); rewrite K by lia; apply upd_other; lia).
  constructor; cbn [nx sq ht rel top freel blocks hash first last drawn].
  - eapply chain_ext; [|exact BW]. intros n I. symmetry. apply KK, in_or_app. auto.
  - exact C.
  - cbn [chain]. split; [reflexivity|]. rewrite K by lia. rewrite upd_same. eapply chain_ext; [|exact BB]. intros n I. symmetry. apply KK, in_or_app. auto.
  - apply nodup_app in BN. destruct BN as (N1 & N2 & N3). apply nodup_app. split; [exact N1|]. split.
    + apply nodup_app. split; [apply NoDup_rev, seq_NoDup|]. split.
      * constructor; [|exact N2]. intros I. assert (L : (top h < top h)%nat) by (apply BT, in_or_app; auto). lia.
      * intros x I. apply in_rev in I. apply in_seq in I. intros [J|J]; [lia|]. assert (L : (x < top h)%nat) by (apply BT, in_or_app; auto). lia.
    + intros x I. assert (L : (x < top h)%nat) by (apply BT, in_or_app; auto). rewrite in_app_iff. intros [J|[J|J]]; [apply in_rev in J; apply in_seq in J; lia|lia|exact (N3 x I J)].
  - intros n I. rewrite !in_app_iff in I. destruct I as [I|[I|[I|I]]].
    + assert (L : (n < top h)%nat) by (apply BT, in_or_app; auto). lia.
    + apply in_rev in I. apply in_seq in I. lia.
    + lia.
    + assert (L : (n < top h)%nat) by (apply BT, in_or_app; auto). lia.
  - cbn [length]. split; [lia|]. rewrite seq_S, map_app, rev_app_distr, <- BK2. cbn [map rev app]. rewrite Nat.add_0_l, <- BK1. reflexivity.
  - exact BL.
  - exact BD.
  - exact BH.
  - exact BR.
  - exact BO.
  - rewrite rev_length, seq_length. cbn [length] in *. lia.
  - split; [|exact BM2]. cbn [length] in *. replace (S (length bs) - 1)%nat with (length bs) by lia. nia.
Qed.

(** a record for the next packet; nothing is at its end yet *)
Lemma alloc_spec : forall h q w fr bs s, body h q w fr bs -> s = lo q + Z.of_nat (length w) -> s < np -> (forall n, last h = Some n -> sq h n < s) ->
  exists n h' fr' bs', alloc_node np num room s h = Some (n, h') /\
    chain (nx h') (first h') w /\ chain (nx h') (freel h') fr' /\ chain (nx h') (blocks h') bs' /\ nx h' n = None /\
    NoDup (w ++ n :: fr' ++ bs') /\ (forall x, In x (w ++ n :: fr' ++ bs') -> (x < top h')%nat) /\
    (top h' = (length bs' * num)%nat /\ bs' = rev (map (fun i => (i * num)%nat) (seq 0 (length bs')))) /\
    sq h' n = s /\ ht h' n = false /\ (forall x, In x w -> sq h' x = sq h x /\ ht h' x = ht h x) /\ rel h' = rel h /\ hash h' = (s, n) :: hash h /\
    first h' = first h /\ last h' = last h /\ drawn h' = drawn h /\ (forall x, x <> n -> sq h' x = sq h x) /\
    (length w + 1 + length fr' + length bs' = top h')%nat /\ ((length bs' - 1) * (num - 1) <= m0)%nat.
Proof.
  intros h q w fr bs s B SE SN SL.
  assert (G : exists h1 fr1 bs1 n fr2, (match freel h with None => if room (top h) then Some (grow num h) else None | Some _ => Some h end) = Some h1 /\
            body h1 q w fr1 bs1 /\ fr1 = n :: fr2 /\ sq h1 = sq h /\ ht h1 = ht h /\ rel h1 = rel h /\ hash h1 = hash h /\ first h1 = first h /\ last h1 = last h /\ drawn h1 = drawn h).
  { destruct (freel h) as [n0|] eqn:FL.
    - exists h, fr, bs. destruct fr as [|n fr2]; [pose proof (b_fr _ _ _ _ _ B) as C; cbn [chain] in C; congruence|]. exists n, fr2. split; [reflexivity|]. split; [exact B|]. auto 20.
    - assert (fr = []) by (destruct fr as [|n fr2]; [reflexivity|pose proof (b_fr _ _ _ _ _ B) as C; cbn [chain] in C; destruct C; congruence]). subst fr.
      destruct (grow_body _ _ _ _ B) as (nx' & fl' & E & B'). cbn [room].
      assert (exists n fr2, rev (seq (S (top h)) (num - 1)) = n :: fr2) as (n & fr2 & R).
      { destruct (rev (seq (S (top h)) (num - 1))) as [|n fr2] eqn:R; [|eauto]. apply (f_equal (@length nat)) in R. rewrite rev_length, seq_length in R. cbn in R. lia. }
      exists (grow num h), (rev (seq (S (top h)) (num - 1))), (top h :: bs), n, fr2. rewrite R in *. split; [reflexivity|]. split; [exact B'|]. rewrite E. cbn. repeat split. }
  destruct G as (h1 & fr1 & bs1 & n & fr2 & G & B1 & -> & E1 & E2 & E3 & E4 & E5 & E6 & E7).
  unfold alloc_node. replace (np <=? s) with false by lia. cbn [orb].
  replace (match last h with Some n => s <=? sq h n | None => false end) with false by (destruct (last h); [specialize (SL _ eq_refl); lia|reflexivity]).
  rewrite G. destruct B1 as [BW BF BB BN BT BK BL BD BH BR BO BC (BM1 & BM2)]. cbn [chain] in BF. destruct BF as (BF1 & BF2). rewrite BF1.
  assert (NN : NoDup (w ++ n :: fr2 ++ bs1)) by exact BN. clear BN.
  assert (TT : forall x, In x (w ++ n :: fr2 ++ bs1) -> (x < top h1)%nat) by (intros x I; apply BT; exact I).
  apply nodup_app in NN. destruct NN as (N1 & N2 & N3). inversion N2 as [|? ? N4 N5]; subst.
  exists n. eexists. exists fr2, bs1. split; [reflexivity|].
  cbn [nx sq ht rel top freel blocks hash first last drawn set_nx set_hash set_freel set_hit set_seq].
  rewrite E1, E2, E3, E4, E5, E6, E7 in *.
  assert (NW : ~ In n w) by (intros I; apply (N3 n I); left; reflexivity).
  split; [apply chain_upd; [exact NW|exact BW]|].
  split; [apply chain_upd; [intros I; apply N4, in_or_app; auto|exact BF2]|].
  split; [apply chain_upd; [intros I; apply N4, in_or_app; auto|exact BB]|].
  split; [apply upd_same|]. split; [apply nodup_app; auto|]. split; [exact TT|]. split; [exact BK|]. split; [apply upd_same|]. split; [apply upd_same|].
  split; [intros x I; split; apply upd_other; intros ->; exact (NW I)|]. repeat (split; [reflexivity|]). split; [intros x X; apply upd_other; exact X|]. cbn [length] in BC. split; [lia|exact BM1].
Qed.

Lemma last_app : forall (w : list nat) x d, List.last (w ++ [x]) d = x.
Proof. intros w x d. apply List.last_last. Qed.
Lemma time_next : forall k, (time delta k + delta (S k)) mod 2^64 = time delta (S k).
Proof. intros k. unfold time. cbn [sum]. rewrite Zplus_mod_idemp_l. reflexivity. Qed.

(** one turn of the loop of get_node *)
Lemma extend_body : forall k h q w x fr bs, body h q (w ++ [x]) fr bs -> (forall n, last h = Some n -> sq h n <= sq h x) ->
  lo q + Z.of_nat (length w + 1 + k) <= np -> (length w + 1 + k <= m0)%nat ->
  exists n h' w' fr' bs', extend np num delta room k x h = Found n h' /\ body h' (Queue (lo q) (hits q ++ repeat false k)) (w' ++ [n]) fr' bs' /\ last h' = Some n /\
    length (w' ++ [n]) = (length w + 1 + k)%nat.
Proof.
  induction k as [|k IH]; intros h q w x fr bs B LA LE LM; cbn [extend repeat].
  - exists x. eexists. exists w, fr, bs. split; [reflexivity|]. rewrite app_nil_r. split; [|split; [reflexivity|rewrite app_length; cbn [length]; lia]].
    destruct B as [BW BF BB BN BT BK BL BD BH BR BO BC (BM1 & BM2)]. destruct q as [l0 h0]. constructor; try assumption. split; assumption.
  - assert (LX : length (w ++ [x]) = (length w + 1)%nat) by (rewrite app_length; reflexivity).
    assert (NX : nth_error (w ++ [x]) (length w) = Some x) by (rewrite nth_error_app2, Nat.sub_diag by lia; reflexivity).
    pose proof (b_data _ _ _ _ _ B _ _ NX) as (SX & HX & RX). pose proof (b_lo _ _ _ _ _ B) as (L0 & L1).
    assert (U : u32 (sq h x + 1) = lo q + Z.of_nat (length (w ++ [x]))) by (rewrite SX, LX; unfold u32; rewrite Z.mod_small; lia).
    destruct (alloc_spec h q (w ++ [x]) fr bs (u32 (sq h x + 1)) B U) as (n & h' & fr' & bs' & E & C1 & C2 & C3 & C4 & N & T & K & S1 & S2 & S3 & S4 & S5 & S6 & S7 & S8 & S9 & S10 & S11).
    { rewrite U. lia. } { intros m M. specialize (LA _ M). rewrite U, LX. lia. }
    rewrite E.
    assert (NI : ~ In n (w ++ [x])) by (apply nodup_app in N; destruct N as (_ & _ & N3); intros I; apply (N3 n I); left; reflexivity).
    assert (NXW : ~ In x w). { apply nodup_app in N. destruct N as (N1 & _). apply nodup_app in N1. destruct N1 as (_ & _ & N3). intros I. apply (N3 x I). left. reflexivity. }
    set (v := u64 (rel h' x + delta (drawn h'))).
    assert (VV : v = time delta (Z.to_nat (lo q) + length (w ++ [x]))).
    { unfold v. rewrite S4, S8, RX, (b_drawn _ _ _ _ _ B), LX. replace (Z.to_nat (lo q) + (length w + 1))%nat with (S (Z.to_nat (lo q) + length w)) by lia. apply time_next. }
    assert (B2 : body (draw n v (set_nx x (Some n) h')) (Queue (lo q) (hits q ++ [false])) ((w ++ [x]) ++ [n]) fr' bs').
    { assert (N' := N). apply nodup_app in N'. destruct N' as (N1 & N2 & N3). inversion N2 as [|? ? N4 N5]; subst.
      constructor; cbn [nx sq ht rel top freel blocks hash first last drawn draw set_nx lo hits].
      - apply chain_snoc; auto.
      - apply chain_upd; [|exact C2]. intros I. apply (N3 x); [apply in_or_app; right; left; reflexivity|]. right. apply in_or_app. auto.
      - apply chain_upd; [|exact C3]. intros I. apply (N3 x); [apply in_or_app; right; left; reflexivity|]. right. apply in_or_app. auto.
      - rewrite <- app_assoc. exact N.
      - rewrite <- app_assoc. exact T.
      - exact K.
      - rewrite !app_length. rewrite <- (b_len _ _ _ _ _ B). rewrite app_length. reflexivity.
      - intros j m J. destruct (Nat.lt_ge_cases j (length (w ++ [x]))) as [L|L].
        + rewrite nth_error_app1 in J by exact L. destruct (b_data _ _ _ _ _ B _ _ J) as (D1 & D2 & D3). assert (I : In m (w ++ [x])) by (eapply nth_error_In; exact J).
          destruct (S3 m I) as (-> & ->). split; [exact D1|]. rewrite nth_error_app1 by (rewrite <- (b_len _ _ _ _ _ B); exact L). split; [exact D2|].
          rewrite upd_other by (intros ->; exact (NI I)). rewrite S4. exact D3.
        + rewrite nth_error_app2 in J by exact L. destruct (j - length (w ++ [x]))%nat as [|[|?]] eqn:JJ; try discriminate. assert (j = length (w ++ [x])) by lia. subst j.
          cbn in J. injection J as <-. rewrite S1, S2. split; [exact U|]. rewrite upd_same, VV. split; [|reflexivity].
          rewrite (b_len _ _ _ _ _ B), nth_error_app2, Nat.sub_diag by lia. reflexivity.
      - intros s m. rewrite S5. cbn [lookup]. destruct (Z.eqb_spec (u32 (sq h x + 1)) s) as [Q|Q].
        + split.
          * intros M. injection M as <-. exists (length (w ++ [x])). rewrite nth_error_app2, Nat.sub_diag by lia. split; [reflexivity|]. rewrite <- Q. exact U.
          * intros (j & J & M). assert (j = length (w ++ [x])) by lia. subst j. rewrite nth_error_app2, Nat.sub_diag in J by lia. cbn in J. congruence.
        + rewrite (b_hash _ _ _ _ _ B s m). split; intros (j & J & M).
          * exists j. split; [|exact M]. rewrite nth_error_app1; [exact J|]. apply nth_error_Some. congruence.
          * exists j. split; [|exact M]. destruct (Nat.lt_ge_cases j (length (w ++ [x]))) as [L|L]; [rewrite nth_error_app1 in J by exact L; exact J|]. exfalso.
            rewrite nth_error_app2 in J by exact L. destruct (j - length (w ++ [x]))%nat as [|[|?]] eqn:JJ; try discriminate. apply Q. rewrite U, M. f_equal. lia.
      - rewrite S8, (b_drawn _ _ _ _ _ B), !app_length. cbn [length]. lia.
      - split; [exact L0|]. rewrite !app_length. cbn [length]. lia.
      - rewrite app_length. cbn [length]. lia.
      - split; [exact S11|]. rewrite !app_length. cbn [length]. lia. }
    destruct (IH _ _ _ _ _ _ B2) as (n2 & h2 & w2 & fr2 & bs2 & E2 & B3 & LL & LN).
    { intros m M. cbn [last sq draw set_nx] in *. rewrite S7 in M. rewrite S1, U. specialize (LA _ M).
      destruct (Nat.eq_dec m n) as [->|NE]; [rewrite S1, U; lia|]. rewrite S9 by exact NE. lia. }
    { cbn [lo]. rewrite app_length. cbn [length]. lia. }
    { rewrite app_length. cbn [length]. lia. }
    exists n2, h2, w2, fr2, bs2. split; [exact E2|]. cbn [lo hits] in B3. rewrite <- app_assoc in B3. cbn [app] in B3. split; [exact B3|]. split; [exact LL|].
    rewrite LN, app_length. cbn [length]. lia.
Qed.

Definition inv (h : heap) (q : queue) (w fr bs : list nat) : Prop := body h q w fr bs /\ w <> [] /\ last h = Some (List.last w 0%nat).

Lemma first_in : forall h q w fr bs, inv h q w fr bs -> exists bn w', w = bn :: w' /\ first h = Some bn /\ sq h bn = lo q.
Proof.
  intros h q w fr bs (B & NE & _). destruct w as [|bn w']; [congruence|]. exists bn, w'. split; [reflexivity|]. pose proof (b_w _ _ _ _ _ B) as C. cbn [chain] in C. split; [tauto|].
  destruct (b_data _ _ _ _ _ B 0%nat bn eq_refl) as (D & _). lia.
Qed.
Lemma last_in : forall h q w fr bs, inv h q w fr bs -> exists en w', w = w' ++ [en] /\ last h = Some en /\ sq h en = lo q + Z.of_nat (length w') /\ nx h en = None.
Proof.
  intros h q w fr bs (B & NE & LA). destruct (exists_last NE) as (w' & en & ->). exists en, w'. split; [reflexivity|]. rewrite last_app in LA. split; [exact LA|].
  split; [|eapply chain_last; apply (b_w _ _ _ _ _ B)]. apply (b_data _ _ _ _ _ B (length w') en). rewrite nth_error_app2, Nat.sub_diag by lia. reflexivity.
Qed.

Definition wide (q : queue) (s : Z) : queue := Queue (lo q) (hits q ++ repeat false (S (Z.to_nat (s - lo q)) - length (hits q))).

(** get_node gives the record of the packet *)
Lemma get_spec : forall h q w fr bs s, inv h q w fr bs -> 0 <= s < np -> s < lo q + Z.of_nat m0 ->
  if s <? lo q then get_node np num delta room s h = Null else
  exists n h' w' fr' bs', get_node np num delta room s h = Found n h' /\ inv h' (wide q s) w' fr' bs' /\ nth_error w' (Z.to_nat (s - lo q)) = Some n.
Proof.
  intros h q w fr bs s I SR SM. destruct (first_in _ _ _ _ _ I) as (bn & w1 & W1 & F1 & F2). destruct (last_in _ _ _ _ _ I) as (en & w2 & W2 & L1 & L2 & L3).
  pose proof I as (B & NE & LA). pose proof (b_lo _ _ _ _ _ B) as (O1 & O2). assert (LW : length w = S (length w2)) by (rewrite W2, app_length; cbn; lia). pose proof (b_len _ _ _ _ _ B) as BL.
  unfold get_node. rewrite L1, F1. destruct (Z.ltb_spec s (lo q)) as [SL|SL].
  { replace (s =? sq h en) with false by lia. replace (sq h en <? s) with false by lia. rewrite F2. replace (s <? lo q) with true by lia. reflexivity. }
  destruct (Z.eqb_spec s (sq h en)) as [SE|SE].
  { exists en, h, w, fr, bs. split; [reflexivity|]. unfold wide. replace (S (Z.to_nat (s - lo q)) - length (hits q))%nat with 0%nat by lia. cbn [repeat]. rewrite app_nil_r.
    split; [destruct q; exact I|]. rewrite W2. replace (Z.to_nat (s - lo q)) with (length w2) by lia. rewrite nth_error_app2, Nat.sub_diag by lia. reflexivity. }
  destruct (Z.ltb_spec (sq h en) s) as [SG|SG].
  { rewrite W2 in B. destruct (extend_body (Z.to_nat (s - sq h en)) h q w2 en fr bs B) as (n & h' & w' & fr' & bs' & E & B' & LL & LN).
    { intros m M. assert (m = en) by congruence. subst m. lia. } { lia. } { lia. }
    exists n, h', (w' ++ [n]), fr', bs'. split; [exact E|].
    assert (X : (S (Z.to_nat (s - lo q)) - length (hits q) = Z.to_nat (s - sq h en))%nat) by lia. unfold wide. rewrite X.
    split; [split; [exact B'|]; split; [destruct w'; discriminate|rewrite last_app; exact LL]|].
    rewrite app_length in LN. cbn [length] in LN. replace (Z.to_nat (s - lo q)) with (length w') by lia. rewrite nth_error_app2, Nat.sub_diag by lia. reflexivity. }
  rewrite F2. replace (s <? lo q) with false by lia.
  assert (exists n, nth_error w (Z.to_nat (s - lo q)) = Some n) as (n & N).
  { destruct (nth_error w (Z.to_nat (s - lo q))) as [n|] eqn:N; [eauto|]. apply nth_error_None in N. lia. }
  assert (LK : lookup s (hash h) = Some n) by (apply (b_hash _ _ _ _ _ B); exists (Z.to_nat (s - lo q)); split; [exact N|lia]).
  rewrite LK. exists n, h, w, fr, bs. split; [reflexivity|]. unfold wide. replace (S (Z.to_nat (s - lo q)) - length (hits q))%nat with 0%nat by lia. cbn [repeat]. rewrite app_nil_r.
  split; [destruct q; exact I|exact N].
Qed.

(** a packet is marked as arrived *)
Lemma hit_spec : forall h q w fr bs k n, inv h q w fr bs -> nth_error w k = Some n -> inv (set_hit n true h) (Queue (lo q) (mark k (hits q))) w fr bs.
Proof.
  intros h q w fr bs k n (B & NE & LA) N. split; [|split; [exact NE|exact LA]]. destruct B as [BW BF BB BN BT BK BL BD BH BR BO BC (BM1 & BM2)].
  assert (KL : (k < length w)%nat) by (apply nth_error_Some; congruence).
  constructor; cbn [nx sq ht rel top freel blocks hash first last drawn set_hit lo hits]; auto.
  - rewrite mark_length by lia. exact BL.
  - intros j m J. destruct (BD _ _ J) as (D1 & D2 & D3). split; [exact D1|]. split; [|exact D3]. rewrite mark_nth by lia. destruct (Nat.eqb_spec j k) as [->|NK].
    + assert (m = n) by congruence. subst m. rewrite upd_same. reflexivity.
    + rewrite upd_other; [exact D2|]. intros ->. apply NK. apply nodup_app in BN. destruct BN as (N1 & _). rewrite NoDup_nth_error in N1. apply N1; [apply nth_error_Some; congruence|congruence].
Qed.

Lemma lookup_filter : forall s0 s l, lookup s (filter (fun e : Z * nat => negb (fst e =? s0)) l) = if s =? s0 then None else lookup s l.
Proof.
  intros s0 s. induction l as [|(k, n) l IH]; cbn [filter lookup fst]; [destruct (s =? s0); reflexivity|].
  destruct (Z.eqb_spec k s0) as [->|N]; cbn [negb lookup].
  - rewrite IH. destruct (Z.eqb_spec s s0) as [->|M]; [reflexivity|]. destruct (Z.eqb_spec s0 s); [congruence|reflexivity].
  - destruct (Z.eqb_spec k s) as [->|M]; [|exact IH]. destruct (Z.eqb_spec s s0); [congruence|reflexivity].
Qed.

(** the oldest record is given back *)
Lemma free_spec : forall h q bn n w fr bs, inv h q (bn :: n :: w) fr bs ->
  inv (free_node bn (set_ends (Some n) (last h) h)) (Queue (lo q + 1) (tl (hits q))) (n :: w) (bn :: fr) bs.
Proof.
  intros h q bn n w fr bs (B & NE & LA). pose proof B as [BW BF BB BN BT BK BL BD BH BR BO BC (BM1 & BM2)]. split; [|split; [discriminate|]].
  2:{ cbn [free_node last set_freel set_nx set_hash set_ends]. rewrite LA. reflexivity. }
  destruct (hits q) as [|h0 hr] eqn:HQ; [discriminate|].
  assert (BN' := BN). apply nodup_app in BN'. destruct BN' as (N1 & N2 & N3). inversion N1 as [|? ? N4 N5]; subst.
  unfold free_node. constructor; cbn [nx sq ht rel top freel blocks hash first last drawn set_freel set_nx set_hash set_ends lo hits tl].
  - cbn [chain] in BW. destruct BW as (_ & W & BW). apply chain_upd; [exact N4|]. cbn [chain]. split; [reflexivity|exact BW].
  - cbn [chain]. split; [reflexivity|]. rewrite upd_same. apply chain_upd; [|exact BF]. intros I. apply (N3 bn (or_introl eq_refl)), in_or_app. auto.
  - apply chain_upd; [|exact BB]. intros I. apply (N3 bn (or_introl eq_refl)), in_or_app. auto.
  - apply (NoDup_Add (a := bn) (l := (n :: w) ++ fr ++ bs)); [|cbn [app] in BN; inversion BN; split; assumption].
    change ((n :: w) ++ (bn :: fr) ++ bs) with ((n :: w) ++ bn :: (fr ++ bs)). apply Add_app.
  - intros x I. apply BT. rewrite !in_app_iff in I. rewrite !in_app_iff. cbn [In] in I |- *. tauto.
  - exact BK.
  - cbn [length] in *. lia.
  - intros j m J. destruct (BD (S j) m J) as (D1 & D2 & D3). cbn [nth_error] in D2. split; [lia|]. split; [exact D2|]. rewrite D3. f_equal. lia.
  - intros s m. rewrite lookup_filter. destruct (BD 0%nat bn eq_refl) as (D1 & _). rewrite D1. destruct (Z.eqb_spec s (lo q + Z.of_nat 0)) as [->|NS].
    + split; [discriminate|]. intros (j & J & M). lia.
    + rewrite BH. split; intros (j & J & M).
      * destruct j as [|j]; [lia|]. exists j. split; [exact J|lia].
      * exists (S j). split; [exact J|lia].
  - rewrite BR. cbn [length]. lia.
  - cbn [length] in *. lia.
  - cbn [length] in *. lia.
  - split; [exact BM1|]. cbn [length] in *. lia.
Qed.

Lemma set_last_same : forall h, set_ends (first h) (last h) h = h.
Proof. intros []. reflexivity. Qed.

Lemma pop_spec : forall h q w fr bs, inv h q w fr bs ->
  match snd (reply np delta Oldest q) with
  | Some q' => exists n h' w' fr' bs', pop np num delta room h = (Found n h', h') /\ inv h' q' w' fr' bs'
  | None => exists h', pop np num delta room h = (Null, h') /\ blocks h' = blocks h /\ top h' = top h /\ (forall x, In x bs -> nx h' x = nx h x)
  end.
Proof.
  intros h q w fr bs I. destruct (first_in _ _ _ _ _ I) as (bn & w1 & -> & F1 & F2). pose proof I as (B & NE & LA). pose proof (b_w _ _ _ _ _ B) as BW. cbn [chain] in BW. destruct BW as (_ & BW).
  pose proof (b_len _ _ _ _ _ B) as BL. pose proof (b_lo _ _ _ _ _ B) as (O1 & O2). unfold pop. rewrite F1. cbn [reply snd]. destruct (hits q) as [|x r] eqn:HQ; [discriminate|]. cbn [snd].
  destruct w1 as [|n w2]; cbn [chain] in BW; cbn [length] in BL, O2.
  - rewrite BW. destruct r as [|? ?]; [|discriminate]. rewrite F2. unfold u32. rewrite Z.mod_small by lia. destruct (Z.ltb_spec (lo q + 1) np) as [SL|SL].
    + pose proof (get_spec h q [bn] fr bs (lo q + 1) I) as G. replace (lo q + 1 <? lo q) with false in G by lia. destruct G as (n & h' & w' & fr' & bs' & G & I' & N); [lia|lia|].
      rewrite G. replace (Z.to_nat (lo q + 1 - lo q)) with 1%nat in N by lia. unfold wide in I'. rewrite HQ in I'. replace (Z.to_nat (lo q + 1 - lo q)) with 1%nat in I' by lia. cbn in I'.
      assert (WW : w' = [bn; n]).
      { pose proof I' as (B' & _). pose proof (b_len _ _ _ _ _ B') as L'. cbn in L'. destruct w' as [|b' [|n' [|? ?]]]; try discriminate. cbn in N. injection N as ->.
        destruct (first_in _ _ _ _ _ I') as (b2 & w3 & WX & F3 & _). assert (b' = b2) by congruence. subst b2.
        assert (FF : first h' = Some bn).
        { unfold get_node in G. pose proof LA as LA'. cbn [List.last] in LA'. rewrite LA', F1 in G. rewrite F2 in G. replace (lo q + 1 =? lo q) with false in G by lia. replace (lo q <? lo q + 1) with true in G by lia.
          replace (Z.to_nat (lo q + 1 - lo q)) with 1%nat in G by lia. cbn [extend] in G. destruct (alloc_node _ _ _ _ h) as [(m, hm)|] eqn:AL; [|discriminate]. injection G as _ <-.
          cbn [first set_ends draw set_nx]. destruct (alloc_spec h q [bn] fr bs (u32 (sq h bn + 1)) B) as (n0 & h0 & fr0 & bs0 & E & _ & _ & _ & _ & _ & _ & _ & _ & _ & _ & _ & _ & S6 & _).
          { rewrite F2. unfold u32. rewrite Z.mod_small by lia. cbn [length]. lia. } { rewrite F2. unfold u32. rewrite Z.mod_small by lia. lia. }
          { intros mm M. assert (mm = bn) by congruence. subst mm. rewrite F2. unfold u32. rewrite Z.mod_small by lia. lia. }
          assert (h0 = hm) by congruence. subst h0. congruence. }
        congruence. }
      subst w'. apply free_spec in I'. cbn [lo hits tl] in I'. eexists _, _, _, _, _. split; [reflexivity|]. exact I'.
    + eexists. split; [reflexivity|]. split; [reflexivity|]. split; [reflexivity|]. intros y Y. cbn [nx set_ends free_node set_freel set_nx set_hash]. apply upd_other. intros ->.
      pose proof (b_nodup _ _ _ _ _ B) as N. inversion N as [|? ? NI _]; subst. apply NI. cbn [app]. apply in_or_app. auto.
  - destruct BW as (BW & _). rewrite BW. destruct r as [|r0 r1]; [discriminate|]. apply free_spec in I. rewrite HQ in I. cbn [tl] in I. eexists _, _, _, _, _. split; [reflexivity|]. exact I.
Qed.

Definition in_range (a : ask) : Prop := match a with Arrived s => 0 <= s < np | Oldest => True end.

(** no packet arrives [m0] or more after the oldest one that is waited for *)
Fixpoint within (l : list ask) (q : queue) : Prop :=
  match l with
  | [] => True
  | a :: l => match a with Arrived s => s < lo q + Z.of_nat m0 | Oldest => True end /\ match snd (reply np delta a q) with Some q => within l q | None => True end
  end.

Lemma answer_spec : forall a l h q w fr bs, inv h q w fr bs -> in_range a -> within (a :: l) q ->
  fst (answer np num delta room a h) = fst (reply np delta a q) /\
  match snd (reply np delta a q) with
  | Some q' => exists h' w' fr' bs', snd (answer np num delta room a h) = Some h' /\ inv h' q' w' fr' bs' /\ within l q'
  | None => snd (answer np num delta room a h) = None
  end.
Proof.
  intros a l h q w fr bs I R (W1 & W2). destruct a as [s|]; cbn [answer].
  - cbn [in_range] in R. pose proof (get_spec _ _ _ _ _ s I R W1) as G. cbn [reply] in *. destruct (s <? lo q) eqn:SL.
    + rewrite G. split; [reflexivity|]. cbn [snd] in *. eauto 8.
    + destruct G as (n & h' & w' & fr' & bs' & -> & I' & N). unfold wide in I'. pose proof I' as (B & _). destruct (b_data _ _ _ _ _ B _ _ N) as (D1 & D2 & D3). cbn [lo hits] in *.
      pose proof (b_lo _ _ _ _ _ B) as (O1 & _). cbn [lo fst snd] in *. split.
      * f_equal; [symmetry; apply nth_error_nth; exact D2|]. rewrite D3. f_equal. lia.
      * pose proof (hit_spec _ _ _ _ _ _ _ I' N) as H. eexists _, _, _, _. split; [reflexivity|]. split; [exact H|exact W2].
  - destruct (first_in _ _ _ _ _ I) as (bn & w1 & -> & F1 & F2). rewrite F1. pose proof I as (B & _). destruct (b_data _ _ _ _ _ B 0%nat bn eq_refl) as (D1 & D2 & D3).
    pose proof (pop_spec _ _ _ _ _ I) as P. cbn [reply] in P, W2 |- *. destruct (hits q) as [|x r] eqn:HQ; [discriminate|]. cbn [nth_error] in D2. injection D2 as <-. cbn [fst snd] in P, W2 |- *.
    rewrite F2, D3. rewrite Nat.add_0_r. destruct (match r with [] => _ | _ => _ end) as [q'|].
    + destruct P as (n & h' & w' & fr' & bs' & -> & I'). split; [reflexivity|]. cbn [snd]. eauto 8.
    + destruct P as (h' & -> & _). split; reflexivity.
Qed.
Lemma talk_spec : forall l h q w fr bs, inv h q w fr bs -> Forall in_range l -> within l q -> talk np num delta room l h = dialogue np delta l q.
Proof.
  induction l as [|a l IH]; intros h q w fr bs I F W; [reflexivity|]. inversion F as [|? ? R F']; subst. cbn [talk dialogue].
  destruct (answer_spec _ _ _ _ _ _ _ I R W) as (E1 & E2). destruct (answer np num delta room a h) as (t, o). destruct (reply np delta a q) as (t', [q'|]); cbn [fst snd] in *; subst t'.
  - destruct E2 as (h' & w' & fr' & bs' & -> & I' & W'). f_equal. eapply IH; eauto.
  - subst o. reflexivity.
Qed.

(** the records when the conversation has ended, wherever *)
Fixpoint after (l : list ask) (h : heap) : heap :=
  match l with
  | [] => h
  | a :: l => match snd (answer np num delta room a h) with Some h => after l h | None => snd (pop np num delta room h) end
  end.
Lemma free_chain : forall next l p k, chain next p l -> (length l <= k)%nat -> lost_free k next p = l.
Proof.
  intros next. induction l as [|n l IH]; intros p k C L; cbn [chain length] in *.
  - subst p. destruct k; reflexivity.
  - destruct C as (-> & C). destruct k as [|k]; [lia|]. cbn [lost_free]. f_equal. apply IH; [exact C|lia].
Qed.
Lemma after_spec : forall l h q w fr bs, inv h q w fr bs -> Forall in_range l -> within l q ->
  let h' := after l h in exists b, top h' = (b * num)%nat /\ ((b - 1) * (num - 1) <= m0)%nat /\
    forall k, (b <= k)%nat -> lost_free k (nx h') (blocks h') = rev (map (fun i => (i * num)%nat) (seq 0 b)).
Proof.
  induction l as [|a l IH]; intros h q w fr bs I F W; cbn [after].
  - destruct I as (B & _). exists (length bs). destruct (b_blocks _ _ _ _ _ B) as (K1 & K2). split; [exact K1|]. split; [apply (b_mem _ _ _ _ _ B)|]. intros k L. rewrite <- K2.
    apply free_chain; [apply (b_bs _ _ _ _ _ B)|exact L].
  - inversion F as [|? ? R F']; subst. destruct (answer_spec _ _ _ _ _ _ _ I R W) as (E1 & E2). destruct (snd (reply np delta a q)) as [q'|] eqn:RE.
    + destruct E2 as (h' & w' & fr' & bs' & -> & I' & W'). eapply IH; eauto.
    + rewrite E2. assert (a = Oldest) by (destruct a as [s|]; [cbn [reply] in RE; destruct (s <? lo q); discriminate|reflexivity]). subst a.
      pose proof (pop_spec _ _ _ _ _ I) as P. rewrite RE in P. destruct P as (h' & -> & P1 & P2 & P3). cbn [snd]. destruct I as (B & _).
      exists (length bs). destruct (b_blocks _ _ _ _ _ B) as (K1 & K2). rewrite P1, P2. split; [exact K1|]. split; [apply (b_mem _ _ _ _ _ B)|]. intros k L. rewrite <- K2.
      apply free_chain; [|exact L]. eapply chain_ext; [|apply (b_bs _ _ _ _ _ B)]. intros x X. symmetry. apply P3, X.
Qed.

Lemma begin_spec : exists h w fr bs, begin np num delta room = Some h /\ inv h (Queue 0 [false]) w fr bs.
Proof.
  unfold begin. cbn [room negb].
  assert (B0 : body nowhere (Queue 0 []) [] [] []).
  { constructor; cbn [nowhere nx sq ht rel top freel blocks hash first last drawn chain app lo hits length]; auto.
    - constructor. - intros n []. - intros [|k] n; discriminate. - intros s n. split; [discriminate|]. intros ([|k] & K & _); discriminate. - cbn. lia. - cbn. lia. }
  destruct (grow_body _ _ _ _ B0) as (nx' & fl' & E & B1).
  destruct (alloc_spec _ _ _ _ _ 0 B1) as (n & h' & fr' & bs' & AE & C1 & C2 & C3 & C4 & N & T & K & S1 & S2 & S3 & S4 & S5 & S6 & S7 & S8 & S9 & S10 & S11).
  { reflexivity. } { lia. } { rewrite E. cbn [last]. discriminate. }
  rewrite AE. eexists. exists [n], fr', bs'. split; [reflexivity|]. rewrite E in *. cbn [first last drawn hash] in *. split; [|split; [discriminate|reflexivity]].
  constructor; cbn [nx sq ht rel top freel blocks hash first last drawn draw set_ends lo hits chain app length]; auto.
  - intros [|k] m M; [|destruct k; discriminate]. cbn in M. injection M as <-. rewrite S1, S2, upd_same. split; [reflexivity|]. split; reflexivity.
  - intros s m. rewrite S5. cbn [lookup]. destruct (Z.eqb_spec 0 s) as [<-|NS].
    + split; [intros M; injection M as <-; exists 0%nat; split; reflexivity|]. intros ([|k] & J & M); [cbn in J; congruence|destruct k; discriminate].
    + split; [discriminate|]. intros ([|k] & J & M); [cbn in M; lia|destruct k; discriminate].
  - rewrite S8. reflexivity.
  - lia.
  - split; [exact S11|lia].
Qed.
End S.

Lemma within_all : forall np delta l q, 0 <= lo q -> Forall (in_range np) l -> within np delta (2 + Z.to_nat np) l q.
Proof.
  intros np delta. induction l as [|a l IH]; intros q L F; [exact I|]. inversion F as [|? ? R F']; subst. cbn [within]. split; [destruct a; cbn [in_range] in R; lia|].
  destruct a as [s|]; cbn [reply].
  - destruct (s <? lo q); cbn [snd]; apply IH; cbn [lo]; auto.
  - destruct (hits q) as [|x [|y r]]; cbn [snd]; [exact I| |apply IH; cbn [lo]; [lia|exact F']]. destruct (lo q + 1 <? np); [|exact I]. apply IH; cbn [lo]; [lia|exact F'].
Qed.

(** ** C145: each packet has its own record *)

(** Missing: the claim without memory for a block, see [C145_memory_refuted]. For all numbers of packets, sizes of blocks, schedules, and all histories of arrivals and removals:
    the records behave as a list with one place per packet. *)
Theorem C145_records_partial : forall np num delta l, 0 < np < 2^32 -> (2 <= num)%nat -> Forall (in_range np) l ->
  exists h, begin np num delta (fun _ => true) = Some h /\ talk np num delta (fun _ => true) l h = dialogue np delta l (Queue 0 [false]).
Proof.
  intros np num delta l NP NU F. destruct (begin_spec np num delta (2 + Z.to_nat np) NP NU ltac:(lia)) as (h & w & fr & bs & E & I). exists h. split; [exact E|].
  refine (talk_spec np num delta (2 + Z.to_nat np) NP NU ltac:(lia) _ _ _ _ _ _ I F _). apply within_all; [cbn; lia|exact F].
Qed.

(** at the end, wherever the conversation stops, each block that was allocated is freed, once; and if no packet is [m] or more ahead of the oldest one that is waited for,
    there are at most 1 + m / (num - 1) blocks of [num] records *)
Theorem C145_blocks : forall np num delta m l, 0 < np < 2^32 -> (2 <= num)%nat -> (2 <= m)%nat -> Forall (in_range np) l -> within np delta m l (Queue 0 [false]) ->
  exists h b, begin np num delta (fun _ => true) = Some h /\ let h' := after np num delta l h in
    top h' = (b * num)%nat /\ ((b - 1) * (num - 1) <= m)%nat /\
    forall k, (b <= k)%nat -> NoDup (lost_free k (nx h') (blocks h')) /\ (forall x, In x (lost_free k (nx h') (blocks h')) <-> exists i, (i < b)%nat /\ x = (i * num)%nat).
Proof.
  intros np num delta m l NP NU NM F W. destruct (begin_spec np num delta m NP NU NM) as (h & w & fr & bs & E & I). exists h.
  destruct (after_spec np num delta m NP NU NM _ _ _ _ _ _ I F W) as (b & B1 & B2 & B3). exists b. split; [exact E|]. cbv zeta. split; [exact B1|]. split; [exact B2|].
  intros k L. rewrite B3 by exact L. split.
  - apply NoDup_rev. apply Injective_map_NoDup; [|apply seq_NoDup]. intros x y X. nia.
  - intros x. rewrite <- in_rev, in_map_iff. split.
    + intros (i & <- & IN). apply in_seq in IN. exists i. split; [lia|reflexivity].
    + intros (i & L2 & ->). exists i. split; [reflexivity|]. apply in_seq. lia.
Qed.

(** what the specification means: a packet is told as there before exactly if it has arrived before *)
Theorem C145_marks : forall np delta l q q' s, reply np delta (Arrived s) q = (l, Some q') -> lo q <= s ->
  lo q' = lo q /\ forall t, lo q <= t ->
    nth (Z.to_nat (t - lo q)) (hits q') false = (t =? s) || nth (Z.to_nat (t - lo q)) (hits q) false.
Proof.
  intros np delta l q q' s E L. cbn [reply] in E. replace (s <? lo q) with false in E by lia. injection E as _ <-. cbn [lo hits]. split; [reflexivity|]. intros t T.
  set (k := Z.to_nat (s - lo q)). set (j := Z.to_nat (t - lo q)). set (e := hits q ++ repeat false (S k - length (hits q))).
  assert (KL : (k < length e)%nat) by (unfold e; rewrite app_length, repeat_length; lia).
  change (nth j (mark k e) false = (t =? s) || nth j (hits q) false).
  replace (nth j (hits q) false) with (nth j e false).
  2:{ unfold e. destruct (Nat.lt_ge_cases j (length (hits q))) as [A|A]; [apply app_nth1; exact A|]. rewrite app_nth2 by exact A. rewrite nth_repeat. symmetry. apply nth_overflow. exact A. }
  pose proof (mark_nth k e j KL) as M. destruct (Z.eqb_spec t s) as [->|N].
  - replace (Nat.eqb j k) with true in M by (symmetry; apply Nat.eqb_eq; reflexivity). apply nth_error_nth with (d := false) in M. rewrite M. reflexivity.
  - replace (Nat.eqb j k) with false in M by (symmetry; apply Nat.eqb_neq; lia). cbn [orb]. destruct (nth_error e j) as [x|] eqn:NE.
    + rewrite (nth_error_nth _ _ false M), (nth_error_nth _ _ false NE). reflexivity.
    + apply nth_error_None in M. apply nth_error_None in NE. rewrite !nth_overflow by assumption. reflexivity.
Qed.

(** Refuted for memory that runs out: when a packet far ahead needs a new block and there is none, the NULL pointer is used. *)
Theorem C145_memory_refuted : exists np num delta room l, Forall (in_range np) l /\ option_map (talk np num delta room l) (begin np num delta room) = Some [Failed].
Proof.
  exists 1000, 100%nat, (fun _ => 1), (fun t => Nat.eqb t 0), [Arrived 150]. split; [repeat constructor; lia|]. vm_compute. reflexivity.
Qed.

(** blocks of three records: packets 0, 5, 5 again, then the oldest seven; the schedule has a packet every second *)
Example C145_witness :
  option_map (talk 7 3 (fun _ => 2^32) (fun _ => true) [Arrived 0; Arrived 5; Arrived 5; Oldest; Oldest; Arrived 1; Oldest; Oldest; Oldest; Oldest; Oldest; Oldest])
    (begin 7 3 (fun _ => 2^32) (fun _ => true)) =
  Some [Packet false (2^32); Packet false (6 * 2^32); Packet true (6 * 2^32); Removed 0 true (2^32); Removed 1 false (2 * 2^32); Unknown; Removed 2 false (3 * 2^32);
   Removed 3 false (4 * 2^32); Removed 4 false (5 * 2^32); Removed 5 true (6 * 2^32); Removed 6 false (7 * 2^32)].
Proof. vm_compute. reflexivity. Qed.

Print Assumptions C145_records_partial.
Print Assumptions C145_blocks.
Print Assumptions C145_marks.
Print Assumptions C145_memory_refuted.
