From Coq Require Import ZArith List Bool Lia ZifyBool ZifyNat Sorted.
From Verif Require Import Base BaseLemmas Arith_Model Arith_Proofs Time_Model Time_Proofs Wire_Model Wire_Spec Wire_Proofs
  Control_Model Packet_Model Sender_Spec Sender_Proofs Receiver_Model Receiver_Spec.
Import ListNotations.
Open Scope Z_scope.
Ltac Zify.zify_post_hook ::= Z.div_mod_to_equations.

Section R.
Variable start timeout npackets : Z.
Variable delta : nat -> Z.
Hypothesis OK : rsession_ok start timeout npackets delta.

Local Notation abs_of := (abs_of start).
Local Notation next_node := (next_node start delta).
Local Notation extend := (extend start delta).
Local Notation get_node := (get_node start delta).
Local Notation lostspec := (lostspec timeout).
Local Notation expect_of := (expect_of timeout).
Local Notation lost_rec := (lost_rec start).

(** ** nodes and queue *)
Definition node_ok (n : node) : Prop :=
  0 <= n_seq n < npackets /\ n_rel n = total delta (Z.to_nat (n_seq n)) mod M64 /\ n_abs n = abs_of (n_rel n).
Fixpoint win_ok (b : Z) (w : list node) : Prop :=
  match w with [] => True | n :: r => n_seq n = b /\ node_ok n /\ win_ok (b + 1) r end.

Lemma next_ok : forall n, node_ok n -> n_seq n + 1 < npackets -> node_ok (next_node n) /\ n_seq (next_node n) = n_seq n + 1.
Proof.
  intros n (A & B & C) L. unfold next_node, node_ok. cbn [n_seq n_rel n_abs]. repeat split; try lia.
  rewrite B. replace (Z.to_nat (n_seq n + 1)) with (S (Z.to_nat (n_seq n))) by lia. cbn [total].
  unfold OWPNum64Add, u64. rewrite Z.add_mod_idemp_l by lia. reflexivity.
Qed.

Lemma extend_ok : forall k n, node_ok n -> n_seq n + Z.of_nat k < npackets ->
  win_ok (n_seq n + 1) (extend k n) /\ length (extend k n) = k /\ Forall (fun m => n_hit m = false) (extend k n).
Proof.
  induction k; intros n Hn L; cbn [Receiver_Model.extend win_ok length]; [auto|].
  destruct (next_ok n Hn ltac:(lia)) as [N1 N2]. destruct (IHk (next_node n) N1 ltac:(lia)) as (I1 & I2 & I3).
  rewrite N2 in I1. repeat split; auto. apply N1. apply N1. apply N1.
Qed.

Lemma win_app : forall w b v, win_ok b (w ++ v) <-> win_ok b w /\ win_ok (b + Z.of_nat (length w)) v.
Proof.
  induction w as [|n w IH]; intros b v; cbn [app win_ok length].
  - rewrite Z.add_0_r. tauto.
  - rewrite IH. replace (b + 1 + Z.of_nat (length w)) with (b + Z.of_nat (S (length w))) by lia. tauto.
Qed.

Lemma win_last : forall w b, win_ok b w -> w <> [] ->
  node_ok (last_node w) /\ n_seq (last_node w) = b + Z.of_nat (length w) - 1.
Proof.
  induction w as [|n w IH]; intros b W N; [congruence|]. destruct W as (A & B & C).
  destruct w as [|m w]; [cbn [last_node last length]; cbn; split; [auto|lia]|].
  destruct (IH _ C ltac:(discriminate)) as [I1 I2].
  replace (last_node (n :: m :: w)) with (last_node (m :: w)) by reflexivity. cbn [length] in *. split; [auto|lia].
Qed.

Lemma win_find : forall w b q, win_ok b w -> b <= q < b + Z.of_nat (length w) ->
  exists n, find (fun n => n_seq n =? q) w = Some n /\ In n w /\ n_seq n = q /\ node_ok n.
Proof.
  induction w as [|n w IH]; intros b q W Hq; cbn [length] in Hq; [lia|]. destruct W as (A & B & C). cbn [find].
  destruct (Z.eqb_spec (n_seq n) q) as [e|e].
  - exists n. repeat split; auto; try apply B. left; auto.
  - destruct (IH (b+1) q C ltac:(lia)) as (m & M1 & M2 & M3 & M4). exists m. repeat split; auto; try apply M4. right; auto.
Qed.

Lemma win_in : forall w b n, win_ok b w -> In n w -> b <= n_seq n < b + Z.of_nat (length w).
Proof.
  induction w as [|m w IH]; intros b n W I; [destruct I|]. destruct W as (A & B & C). cbn [length].
  destruct I as [<-|I]; [lia|]. specialize (IH _ _ C I). lia.
Qed.

Lemma get_node_ok : forall w b q, win_ok b w -> w <> [] -> b <= q < npackets ->
  exists ext n, get_node w q = Some (w ++ ext, n) /\ win_ok b (w ++ ext) /\ Forall (fun m => n_hit m = false) ext /\
    In n (w ++ ext) /\ n_seq n = q /\ node_ok n.
Proof.
  intros w b q W N Hq. unfold Receiver_Model.get_node. destruct (win_last w b W N) as [L1 L2].
  assert (Lw: (1 <= length w)%nat) by (destruct w; [congruence|cbn; lia]).
  destruct (Z.ltb_spec (n_seq (last_node w)) q) as [lt|ge].
  - destruct (extend_ok (Z.to_nat (q - n_seq (last_node w))) (last_node w) L1 ltac:(lia)) as (E1 & E2 & E3).
    set (ext := extend _ _) in *.
    assert (W': win_ok b (w ++ ext)).
    { apply win_app. split; auto. replace (b + Z.of_nat (length w)) with (n_seq (last_node w) + 1) by lia. exact E1. }
    destruct (win_find _ b q W') as (n & F1 & F2 & F3 & F4); [rewrite app_length; lia|].
    exists ext, n. rewrite F1. auto 10.
  - destruct (win_find _ b q W ltac:(lia)) as (n & F1 & F2 & F3 & F4).
    exists [], n. rewrite app_nil_r, F1. auto 10.
Qed.

(** ** times *)
Lemma total_nonneg : forall n, 0 <= total delta n.
Proof. destruct OK as (_ & _ & _ & Hd). induction n; cbn [total]; [apply Hd|specialize (Hd (S n)); lia]. Qed.
Lemma total_mono : forall m n, (m <= n)%nat -> total delta m <= total delta n.
Proof.
  destruct OK as (_ & _ & _ & Hd). induction 1; [lia|]. cbn [total]. pose proof (Hd (S m0)). lia.
Qed.

Lemma abs_ns : forall n, node_ok n -> norm (n_abs n) /\ ns (n_abs n) = rdue start delta (n_seq n).
Proof.
  intros n (A & B & C). rewrite C, B. unfold Receiver_Model.abs_of, OWPTimestampToTimespec. cbn [owptime].
  unfold OWPNum64Sub, OWPNum64Add, u64. rewrite JAN_eq. unfold JAN_1970.
  match goal with |- norm (OWPNum64ToTimespec ?y) /\ _ => assert (Hy: 0 <= y < M64) by (apply Z.mod_pos_bound; lia) end.
  destruct (num64_ns _ Hy) as [N1 N2]. split; [exact N1|]. rewrite N2. unfold rdue.
  rewrite Zminus_mod_idemp_l.
  rewrite <- Z.add_sub_assoc. rewrite Z.add_mod_idemp_l by lia. f_equal. f_equal. lia.
Qed.

Lemma lost_ns : norm lostspec /\ ns lostspec = ns_of timeout /\ 0 <= ns_of timeout.
Proof.
  destruct OK as (_ & Ht & _). destruct (num64_ns timeout Ht) as [A B]. split; [exact A|]. split; [exact B|].
  unfold ns_of. apply Z.div_pos; lia.
Qed.

Lemma expect_ns : forall n, node_ok n -> norm (expect_of n) /\ ns (expect_of n) = rdue start delta (n_seq n) + ns_of timeout.
Proof.
  intros n Hn. unfold Receiver_Model.expect_of. destruct (abs_ns n Hn) as [A1 A2]. destruct lost_ns as (L1 & L2 & _).
  assert (Z0: norm (0, 0)) by (red; cbn; lia).
  destruct (ts_add_ns _ _ Z0 A1) as [B1 B2]. destruct (ts_add_ns _ _ B1 L1) as [C1 C2]. split; [exact C1|].
  rewrite C2, B2, A2, L2. unfold ns at 1. cbn [fst snd]. lia.
Qed.

Lemma rdue_mono : forall p q, in_era start npackets delta -> 0 <= p <= q -> q < npackets ->
  rdue start delta p <= rdue start delta q.
Proof.
  intros p q (E1 & E2) Hp Hq. unfold rdue, ns_of.
  assert (T1 := total_mono (Z.to_nat p) (Z.to_nat q) ltac:(lia)).
  assert (T2 := total_mono (Z.to_nat q) (Z.to_nat (npackets - 1)) ltac:(lia)).
  assert (T0 := total_nonneg (Z.to_nat p)).
  rewrite !Z.mod_small by lia. apply Z.div_le_mono; lia.
Qed.

(** ** accounting *)
Lemma lost_app : forall q a b, lost_of q (a ++ b) = (lost_of q a + lost_of q b)%nat.
Proof. intros. unfold lost_of. now rewrite filter_app, app_length. Qed.
Lemma received_app : forall q a b, received_of q (a ++ b) = (received_of q a + received_of q b)%nat.
Proof. intros. unfold received_of. now rewrite filter_app, app_length. Qed.

Definition lost_seqs (recs : list datarec) : list Z := map r_seq (filter is_lost recs).

Definition acct (b : Z) (w : list node) (recs : list datarec) : Prop :=
  (forall q, 0 <= q < b -> classified q recs) /\
  (forall q, b <= q -> lost_of q recs = 0%nat) /\
  (forall n, In n w -> (n_hit n = true <-> (1 <= received_of (n_seq n) recs)%nat)) /\
  (forall q, b + Z.of_nat (length w) <= q -> received_of q recs = 0%nat) /\
  StronglySorted Z.lt (lost_seqs recs) /\ Forall (fun q => q < b) (lost_seqs recs).

Lemma sorted_snoc : forall l x, StronglySorted Z.lt l -> Forall (fun q => q < x) l -> StronglySorted Z.lt (l ++ [x]).
Proof.
  induction 1 as [|a l S IH F]; intros Fx; cbn [app]; [repeat constructor|].
  inversion Fx; subst. constructor; auto. apply Forall_app. split; auto.
Qed.

Lemma lost_one : forall n er q, lost_of q [lost_rec n er] = if n_seq n =? q then 1%nat else 0%nat.
Proof. intros. unfold lost_of. cbn [filter r_seq Receiver_Model.lost_rec is_lost r_recv owptime]. unfold is_lost. cbn. destruct (n_seq n =? q); reflexivity. Qed.
Lemma received_lost : forall n er q, received_of q [lost_rec n er] = 0%nat.
Proof. intros. unfold received_of, is_lost. cbn. rewrite andb_false_r. reflexivity. Qed.

Lemma acct_pop_lost : forall n rest recs er, win_ok (n_seq n) (n :: rest) -> acct (n_seq n) (n :: rest) recs -> n_hit n = false ->
  acct (n_seq n + 1) rest (recs ++ [lost_rec n er]).
Proof.
  intros n rest recs er W (A & B & C & R & S & F) Hh. destruct W as (_ & NK & W).
  assert (R0: received_of (n_seq n) recs = 0%nat).
  { destruct (received_of (n_seq n) recs) eqn:Er; auto. exfalso.
    assert (n_hit n = true) by (apply C; [left; auto|lia]). congruence. }
  unfold acct. repeat split.
  - intros q Hq. unfold classified. rewrite lost_app, received_app, lost_one, received_lost, Nat.add_0_r.
    destruct (Z.eqb_spec (n_seq n) q) as [e|e].
    + subst q. right. rewrite (B (n_seq n)) by lia. auto.
    + rewrite Nat.add_0_r. apply A. lia.
  - intros q Hq. rewrite lost_app, lost_one. destruct (Z.eqb_spec (n_seq n) q); [lia|]. rewrite B by lia. reflexivity.
  - intros Hm. rewrite received_app, received_lost, Nat.add_0_r. apply C; [right; auto|auto].
  - intros Hm. rewrite received_app, received_lost, Nat.add_0_r in Hm. apply C; [right; auto|auto].
  - intros q Hq. rewrite received_app, received_lost, Nat.add_0_r. apply R. cbn [length]. lia.
  - unfold lost_seqs. rewrite filter_app, map_app. cbn [filter is_lost Receiver_Model.lost_rec r_recv owptime map r_seq].
    unfold is_lost. cbn. apply sorted_snoc; auto.
  - unfold lost_seqs. rewrite filter_app, map_app. unfold is_lost at 2. cbn. apply Forall_app. split.
    + eapply Forall_impl; [|exact F]. cbn. intros; lia.
    + constructor; [lia|constructor].
Qed.

Lemma acct_pop_hit : forall n rest recs, win_ok (n_seq n) (n :: rest) -> acct (n_seq n) (n :: rest) recs -> n_hit n = true ->
  acct (n_seq n + 1) rest recs.
Proof.
  intros n rest recs W (A & B & C & R & S & F) Hh.
  assert (R1: (1 <= received_of (n_seq n) recs)%nat) by (apply C; [left; auto|auto]).
  unfold acct. split; [|split; [|split; [|split; [|split]]]]; auto.
  - intros q Hq. destruct (Z.eq_dec q (n_seq n)) as [->|]; [left; split; auto; apply B; lia|apply A; lia].
  - intros q Hq. apply B. lia.
  - intros m Hm. apply C. right; auto.
  - intros q Hq. apply R. cbn [length]. lia.
  - eapply Forall_impl; [|exact F]. cbn. intros; lia.
Qed.

Lemma acct_extend : forall b w ext recs, w <> [] -> win_ok b (w ++ ext) -> Forall (fun m => n_hit m = false) ext ->
  acct b w recs -> acct b (w ++ ext) recs.
Proof.
  intros b w ext recs N W X (A & B & C & R & S & F). unfold acct. split; [|split; [|split; [|split; [|split]]]]; auto.
  - intros n Hn. apply in_app_or in Hn. destruct Hn as [Hn|Hn]; [auto|].
    rewrite Forall_forall in X. rewrite (X n Hn). apply win_app in W. destruct W as [_ W].
    pose proof (win_in _ _ _ W Hn). rewrite (R (n_seq n)) by lia. split; [discriminate|lia].
  - intros q Hq. apply R. rewrite app_length in Hq. lia.
Qed.

(** a fresh node appended when the queue has run empty *)
Lemma acct_fresh : forall b n recs, n_seq n = b -> n_hit n = false -> acct b [] recs -> acct b [n] recs.
Proof.
  intros b n recs E Hh (A & B & C & R & S & F). unfold acct. split; [|split; [|split; [|split; [|split]]]]; auto.
  - intros m [<-|[]]. rewrite Hh, (R (n_seq n)) by (cbn; lia). split; [discriminate|lia].
  - intros q Hq. apply R. cbn [length] in *. lia.
Qed.

Lemma acct_hit : forall b w recs r q, win_ok b w -> b <= q -> q < b + Z.of_nat (length w) -> r_seq r = q -> is_lost r = false ->
  acct b w recs -> acct b (set_hit q w) (recs ++ [r]).
Proof.
  intros b w recs r q W Hb Hq Es Hl (A & B & C & R & S & F).
  assert (L1: forall p, lost_of p (recs ++ [r]) = lost_of p recs).
  { intros p. rewrite lost_app. unfold lost_of at 2. cbn [filter]. rewrite Hl, andb_false_r. cbn. lia. }
  assert (L2: forall p, received_of p (recs ++ [r]) = (received_of p recs + (if (q =? p)%Z then 1 else 0))%nat).
  { intros p. rewrite received_app. unfold received_of at 2. cbn [filter]. rewrite Hl, Es, andb_true_r. destruct (q =? p); reflexivity. }
  assert (L3: lost_seqs (recs ++ [r]) = lost_seqs recs).
  { unfold lost_seqs. rewrite filter_app. cbn [filter]. rewrite Hl, app_nil_r. reflexivity. }
  assert (LS: length (set_hit q w) = length w) by apply map_length.
  unfold acct. rewrite L3, LS. split; [|split; [|split; [|split; [|split]]]]; auto.
  - intros p Hp. unfold classified. rewrite L1, L2. destruct (Z.eqb_spec q p); [lia|]. rewrite Nat.add_0_r. apply A. lia.
  - intros p Hp. rewrite L1. auto.
  - intros n Hn. unfold set_hit in Hn. apply in_map_iff in Hn. destruct Hn as (m & <- & Hm).
    destruct (Z.eqb_spec (n_seq m) q) as [e|e].
    + cbn [n_hit n_seq]. rewrite L2, e, Z.eqb_refl. split; [lia|auto].
    + rewrite L2. rewrite (proj2 (Z.eqb_neq q (n_seq m))) by lia. rewrite Nat.add_0_r. auto.
  - intros p Hp. rewrite L2. destruct (Z.eqb_spec q p); [lia|]. rewrite R by lia. reflexivity.
Qed.

Lemma set_hit_win : forall w b q, win_ok b w -> win_ok b (set_hit q w).
Proof.
  induction w as [|n w IH]; intros b q W; [exact I|]. destruct W as (A & B & C). cbn [set_hit map win_ok].
  destruct (n_seq n =? q); cbn [n_seq]; (split; [exact A|]; split; [exact B|apply IH; exact C]).
Qed.

(** ** flush_lost *)
Lemma usr2_mono : forall u j, usr2_seen u (S j) = false -> usr2_seen u j = false.
Proof. intros [k|] j; cbn [usr2_seen]; auto. lia. Qed.

Lemma write_lost : forall recs n er, multiplier er <> 0 -> write_rec recs (lost_rec n er) = Some (recs ++ [lost_rec n er]).
Proof.
  intros recs n er Hm. unfold write_rec. destruct (encode_datarec (lost_rec n er)) eqn:Ee; auto.
  apply encode_datarec_none in Ee. cbn in Ee. destruct Ee; [lia|congruence].
Qed.
Lemma write_some : forall recs r recs', write_rec recs r = Some recs' -> recs' = recs ++ [r].
Proof. unfold write_rec. intros recs r recs'. destruct (encode_datarec r); intros Hs; inversion Hs; auto. Qed.

Definition flush_post (Rok : datarec -> Prop) (u : option nat) (j : nat) (er : timestamp) (cur : tspec) (b : Z) (f : flush) : Prop :=
  match f with
  | FGo w' recs' => exists b', b <= b' /\ win_ok b' w' /\ w' <> [] /\ acct b' w' recs' /\ Forall Rok recs' /\
      (u = None \/ 0 < ns_of timeout -> usr2_seen u j = false /\ exists n r, w' = n :: r /\ ts_lt (expect_of n) cur = false)
  | FOver recs' => acct npackets [] recs' /\ Forall Rok recs'
  | FErr recs' => (exists b' w', acct b' w' recs') /\ Forall Rok recs' /\ multiplier er = 0
  end.

Lemma flush_loop_ok : forall (Rok : datarec -> Prop) u er fuel j cur w recs b,
  (forall n cur', node_ok n -> (u = None -> cur' = cur) -> ts_lt (expect_of n) cur' = true -> Rok (lost_rec n er)) ->
  win_ok b w -> w <> [] -> acct b w recs -> Forall Rok recs -> (Z.to_nat (npackets - b) < fuel)%nat ->
  flush_post Rok u j er cur b (flush_loop start timeout npackets delta fuel j u er cur w recs).
Proof.
  intros Rok u er. induction fuel as [|fuel IH]; intros j cur w recs b HR W N A F L; [lia|].
  destruct w as [|n rest]; [congruence|]. cbn [flush_loop].
  pose proof W as (Es & NK & W'). set (cur' := if usr2_seen u j then _ else cur).
  assert (CN: u = None -> cur' = cur) by (intros ->; reflexivity).
  destruct (ts_lt (expect_of n) cur') eqn:T.
  2:{ cbn [flush_post]. exists b. split; [lia|]. split; [exact W|]. split; [exact N|]. split; [exact A|]. split; [exact F|].
      intros Hu. destruct (usr2_seen u j) eqn:U.
      - exfalso. destruct Hu as [-> | Hp]; [discriminate|]. unfold cur' in T.
        destruct (expect_ns n NK) as [E1 E2]. destruct lost_ns as (L1 & L2 & L3).
        assert (Z0: norm (0, 0)) by (red; cbn; lia).
        destruct (ts_add_ns _ _ Z0 E1) as [B1 B2]. destruct (ts_add_ns _ _ B1 L1) as [C1 C2].
        rewrite ts_lt_ns in T by auto. rewrite C2, B2, L2 in T. unfold ns at 2 in T. cbn [fst snd] in T. lia.
      - split; auto. exists n, rest. auto. }
  assert (Pop: (n_hit n = true -> acct (b + 1) rest recs) /\ (n_hit n = false -> acct (b + 1) rest (recs ++ [lost_rec n er]))).
  { split; intros Hh; rewrite <- Es in *; [now apply acct_pop_hit with (n := n)|now apply acct_pop_lost]. }
  assert (Go: forall recs1, acct (b + 1) rest recs1 -> Forall Rok recs1 ->
    flush_post Rok u j er cur b
      match rest with
      | [] => if n_seq n + 1 <? npackets then flush_loop start timeout npackets delta fuel (S j) u er cur' [next_node n] recs1 else FOver recs1
      | _ :: _ => flush_loop start timeout npackets delta fuel (S j) u er cur' rest recs1
      end).
  { intros recs1 A1 F1.
    assert (Step: forall f, flush_post Rok u (S j) er cur' (b + 1) f -> flush_post Rok u j er cur b f).
    { intros [w' recs'|recs'|recs']; cbn [flush_post]; auto.
      intros (b' & Q1 & Q2 & Q3 & Q4 & Q5 & Q6). exists b'. split; [lia|]. repeat (split; [assumption|]).
      intros Hu. destruct (Q6 Hu) as [U X]. pose proof (usr2_mono _ _ U) as U'. unfold cur' in X. rewrite U' in X. auto. }
    assert (HR': forall n0 cur'0, node_ok n0 -> (u = None -> cur'0 = cur') -> ts_lt (expect_of n0) cur'0 = true -> Rok (lost_rec n0 er)).
    { intros n0 c0 Hn0 Hc0. apply HR; auto. intros Hu. rewrite Hc0 by auto. auto. }
    destruct NK as (NK1 & NK2).
    destruct rest as [|m rest'].
    - destruct (Z.ltb_spec (n_seq n + 1) npackets) as [lt|ge].
      + destruct (next_ok n (conj NK1 NK2) lt) as [X1 X2]. apply Step. apply IH; auto; try discriminate.
        * cbn [win_ok]. repeat split; auto; try lia; apply X1.
        * apply acct_fresh; auto. lia.
        * lia.
      + cbn [flush_post]. replace npackets with (b + 1) by lia. auto.
    - apply Step. apply IH; auto; try discriminate. lia. }
  destruct (n_hit n) eqn:Hh.
  - apply Go; [now apply Pop|exact F].
  - destruct (write_rec recs (lost_rec n er)) as [recs1|] eqn:Wr.
    + apply write_some in Wr. subst recs1. apply Go; [now apply Pop|].
      apply Forall_app. split; [exact F|]. constructor; [|constructor]. eapply HR; eauto.
    + cbn [flush_post]. split; [eauto|]. split; [exact F|].
      destruct (Z.eq_dec (multiplier er) 0); auto. rewrite write_lost in Wr by auto. discriminate.
Qed.

Lemma flush_ok : forall (Rok : datarec -> Prop) u er cur w recs b,
  (forall n cur', node_ok n -> (u = None -> cur' = cur) -> ts_lt (expect_of n) cur' = true -> Rok (lost_rec n er)) ->
  win_ok b w -> w <> [] -> acct b w recs -> Forall Rok recs ->
  flush_post Rok u 0 er cur b (flush_lost start timeout npackets delta u er cur w recs).
Proof.
  intros Rok u er cur w recs b HR W N A F. destruct w as [|n rest]; [congruence|].
  unfold flush_lost. apply flush_loop_ok; auto. destruct W as (-> & _). lia.
Qed.
End R.
