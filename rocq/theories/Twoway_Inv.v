From Coq Require Import ZArith List Bool Lia ZifyBool ZifyNat.
From Verif Require Import Base BaseLemmas Arith_Model Arith_Proofs Time_Model Time_Proofs Wire_Model Wire_Spec Wire_Proofs
  Control_Model Control_Spec Packet_Model Packet_Proofs Sender_Spec Sender_Proofs Receiver_Model Receiver_Spec Receiver_Run
  Reflector_Model Reflector_Spec Reflector_Proofs Twoway_Model Twoway_Spec Twoway_Proofs.
Import ListNotations.
Open Scope Z_scope.
Ltac Zify.zify_post_hook ::= Z.div_mod_to_equations.

Definition sent_at (out : list sent) (q : Z) (t : tspec) : Prop :=
  exists s, In s out /\ s_seq s = q /\ was_sent (s_res s) = true /\ s_time s = t.
Lemma sent_at_app : forall out o2 q t, sent_at out q t -> sent_at (out ++ o2) q t.
Proof. intros out o2 q t (s & A & B). exists s. split; [apply in_or_app; now left|exact B]. Qed.

Section T.
Variable start timeout npackets : Z.
Variable delta : nat -> Z.
Hypothesis OK : rsession_ok start timeout npackets delta.
Local Notation tnext := (tnext start delta).
Local Notation tget := (tget start delta).
Local Notation lost := (tw_lost start).
Local Notation tw_ok := (tw_ok npackets delta).
Local Notation fresh := (fresh start).
Local Notation tn_ok := (tn_ok npackets delta).

Definition ninv (recs : list twrec) (out : list sent) (skip : list (Z * tspec)) (n : tnode) : Prop :=
  tw_lost_of (x_seq n) recs = 0%nat /\
  (x_hit n = true -> (1 <= tw_received_of (x_seq n) recs)%nat \/ In (x_seq n) (map fst skip)) /\
  (x_hit n = false -> tw_received_of (x_seq n) recs = 0%nat) /\
  (x_sent n = true -> (In (x_seq n) (map fst skip) /\ x_hit n = true /\ x_abs n = abs_of start (x_rel n)) \/ sent_at out (x_seq n) (x_abs n)).

Definition past (recs : list twrec) (out : list sent) (skip : list (Z * tspec)) (q : Z) : Prop :=
  (tw_lost_of q recs = 1%nat /\ tw_received_of q recs = 0%nat /\ exists t, sent_at out q t) \/
  (tw_lost_of q recs = 0%nat /\ ((1 <= tw_received_of q recs)%nat \/ In q (map fst skip))).

Record core (b f : Z) (w : list tnode) (recs : list twrec) (out : list sent) (skip : list (Z * tspec)) : Prop := mkCore {
  c_b : 0 <= b <= f; c_f : f <= b + Z.of_nat (length w); c_w : tw_ok b w;
  c_n : forall n, In n w -> ninv recs out skip n;
  c_fresh : forall n, In n w -> f <= x_seq n -> fresh n;
  c_past : forall q, 0 <= q < b -> past recs out skip q;
  c_none : forall q, q < 0 \/ b + Z.of_nat (length w) <= q -> tw_lost_of q recs = 0%nat /\ tw_received_of q recs = 0%nat;
  c_out : forall s, In s out -> was_sent (s_res s) = true -> 0 <= s_seq s < f /\ forall n, In n w -> x_seq n = s_seq s -> x_sent n = true /\ x_abs n = s_time s;
  c_skip : forall x, In x skip -> fst x < f }.

(** what holds of the records in any case *)
Definition exclusive (recs : list twrec) : Prop := forall q, (tw_lost_of q recs <= 1)%nat /\ (tw_lost_of q recs = 0%nat \/ tw_received_of q recs = 0%nat).
Lemma core_exclusive : forall b f w recs out skip, core b f w recs out skip -> exclusive recs.
Proof.
  intros b f w recs out skip C q. destruct (Z_lt_dec q 0) as [l|l]; [destruct (c_none _ _ _ _ _ _ C q (or_introl l)) as [-> ->]; lia|].
  destruct (Z_lt_dec q b) as [l2|l2]; [destruct (c_past _ _ _ _ _ _ C q ltac:(lia)) as [(-> & -> & _)|(-> & _)]; lia|].
  destruct (Z_lt_dec q (b + Z.of_nat (length w))) as [l3|l3].
  - destruct (tw_find npackets delta w b q (c_w _ _ _ _ _ _ C) ltac:(lia)) as (n & _ & I & <-). destruct (c_n _ _ _ _ _ _ C n I) as (-> & _). lia.
  - destruct (c_none _ _ _ _ _ _ C q ltac:(lia)) as [-> ->]. lia.
Qed.

Lemma core_extend : forall b f w ext recs out skip, core b f w recs out skip -> tw_ok b (w ++ ext) -> Forall fresh ext -> core b f (w ++ ext) recs out skip.
Proof.
  intros b f w ext recs out skip C W F. apply (tw_app npackets delta) in W as W2. destruct W2 as [_ W2].
  assert (X: forall n, In n ext -> b + Z.of_nat (length w) <= x_seq n /\ fresh n).
  { intros n I. rewrite Forall_forall in F. destruct (tw_in npackets delta _ _ _ W2 I). split; [lia|auto]. }
  destruct C as [C1 C2 C3 C4 C5 C6 C7 C8 C9]. split; auto.
  - rewrite app_length. lia.
  - intros n I. apply in_app_or in I as [I|I]; [auto|]. destruct (X n I) as [A (B1 & B2 & _)]. destruct (C7 (x_seq n) (or_intror A)) as [L R].
    unfold ninv. rewrite L, R, B1, B2. repeat split; auto; discriminate.
  - intros n I. apply in_app_or in I as [I|I]; [auto|]. intros _. apply X, I.
  - intros q [Q|Q]; [auto|]. apply C7. right. rewrite app_length in Q. lia.
  - intros s Is Ws. destruct (C8 s Is Ws) as [A B]. split; [exact A|]. intros n I Q. apply in_app_or in I as [I|I]; [auto|]. destruct (X n I). lia.
Qed.

Lemma core_pop : forall b f n w recs out skip er, core b f (n :: w) recs out skip -> x_sent n = true ->
  core (b + 1) f w (recs ++ (if x_hit n then [] else [lost n er])) out skip.
Proof.
  intros b f n w recs out skip er C S. destruct C as [C1 C2 C3 C4 C5 C6 C7 C8 C9]. pose proof C3 as (Q & NK & W). cbn [length] in *.
  assert (BF: b < f).
  { destruct (Z_lt_dec b f) as [l|l]; [exact l|]. exfalso. destruct (C5 n (or_introl eq_refl) ltac:(lia)) as (_ & X & _). congruence. }
  destruct (C4 n (or_introl eq_refl)) as (N1 & N2 & N3 & N4). rewrite Q in *.
  assert (LQ: forall q, tw_lost_of q (recs ++ (if x_hit n then [] else [lost n er])) = (tw_lost_of q recs + (if negb (x_hit n) && (b =? q)%Z then 1 else 0))%nat).
  { intros q. destruct (x_hit n); cbn [negb andb]; [rewrite app_nil_r; lia|]. rewrite tw_lost_app, tw_lost_one, Q. reflexivity. }
  assert (RQ: forall q, tw_received_of q (recs ++ (if x_hit n then [] else [lost n er])) = tw_received_of q recs).
  { intros q. destruct (x_hit n); [now rewrite app_nil_r|]. rewrite tw_received_app, tw_received_lost. lia. }
  split; auto.
  - lia.
  - lia.
  - intros m I. destruct (tw_in npackets delta _ _ _ W I) as [R _]. destruct (C4 m (or_intror I)) as (M1 & M2 & M3 & M4).
    unfold ninv. rewrite LQ, RQ. replace (b =? x_seq m) with false by lia. rewrite andb_false_r, Nat.add_0_r. auto.
  - intros m I. apply C5. now right.
  - intros q Hq. unfold past. rewrite LQ, RQ. destruct (Z.eqb_spec b q) as [<-|e].
    + destruct (x_hit n) eqn:Hh; cbn [negb andb]; rewrite N1.
      * right. split; [reflexivity|auto].
      * left. split; [reflexivity|]. split; [auto|]. destruct (N4 S) as [(_ & X & _)|X]; [discriminate|]. eauto.
    + rewrite andb_false_r, Nat.add_0_r. apply C6. lia.
  - intros q Hq. rewrite LQ, RQ. replace (b =? q) with false by lia. rewrite andb_false_r, Nat.add_0_r. apply C7. lia.
  - intros s Is Ws. destruct (C8 s Is Ws) as [A B]. split; [exact A|]. intros m I. apply B. now right.
Qed.

Lemma core_pops : forall k b f w recs out skip er, core b f w recs out skip -> (k <= length w)%nat -> Forall (fun n => x_sent n = true) (firstn k w) ->
  core (b + Z.of_nat k) f (skipn k w) (recs ++ lost_recs start er (firstn k w)) out skip.
Proof.
  induction k; intros b f w recs out skip er C L F.
  - cbn [firstn skipn lost_recs filter map Z.of_nat]. unfold lost_recs. cbn [filter map]. rewrite Z.add_0_r, app_nil_r. exact C.
  - destruct w as [|n w]; [cbn in L; lia|]. cbn [firstn skipn length] in *. apply Forall_cons_iff in F as [F1 F2].
    rewrite lost_recs_cons, app_assoc. replace (b + Z.of_nat (S k)) with (b + 1 + Z.of_nat k) by lia. apply IHk; [|lia|exact F2].
    now apply core_pop.
Qed.

Lemma flush_core : forall u er cur b f w recs out skip, core b f w recs out skip -> w <> [] ->
  exists k, (k <= length w)%nat /\ Forall (past_due timeout u cur) (firstn k w) /\
  match tflush_lost start timeout npackets delta u er cur w recs with
  | TFGo w' recs' => recs' = recs ++ lost_recs start er (firstn k w) /\ w' <> [] /\ core (b + Z.of_nat k) f w' recs' out skip /\
      (((k < length w)%nat /\ w' = skipn k w) \/ (k = length w /\ w' = [tnext (tlast w)])) /\
      (u = None -> exists h r, w' = h :: r /\ ts_lt (tw_expect timeout h) cur && x_sent h = false)
  | TFOver recs' => recs' = recs ++ lost_recs start er (firstn k w) /\ core (b + Z.of_nat k) f [] recs' out skip /\ b + Z.of_nat k = npackets
  | TFErr recs' => recs' = recs ++ lost_recs start er (firstn k w) /\ core (b + Z.of_nat k) f (skipn k w) recs' out skip
  end.
Proof.
  intros u er cur b f w recs out skip C N. unfold tflush_lost. destruct w as [|n0 w0] eqn:EW; [congruence|]. rewrite <- EW in *.
  destruct (tw_last npackets delta w b (c_w _ _ _ _ _ _ C) N) as (L1 & L2 & _).
  assert (B0: x_seq n0 = b) by (pose proof (c_w _ _ _ _ _ _ C) as X; rewrite EW in X; exact (proj1 X)).
  assert (FU: (length w < S (Z.to_nat (npackets - x_seq n0)))%nat) by (destruct L1 as (L1 & _); lia).
  destruct (flush_char start timeout npackets delta _ 0%nat u er cur w recs N FU) as (k & K1 & K2 & K3).
  exists k. split; [exact K1|]. split; [exact K2|].
  assert (P := core_pops k b f w recs out skip er C K1 ltac:(eapply Forall_impl; [|exact K2]; intros a [X _]; exact X)).
  destruct (tflush_loop _ _ _ _ _ _ _ _ _ _ _) as [w' recs'|recs'|recs'].
  - destruct K3 as (R & B & S). split; [exact R|].
    destruct B as [[B1 ->]|(B1 & -> & B3)].
    + split; [intros X; apply (f_equal (@length _)) in X; rewrite skipn_length in X; cbn in X; lia|]. rewrite R. split; [exact P|]. split; [left; auto|exact S].
    + split; [discriminate|]. split; [|split; [right; auto|exact S]]. rewrite R. rewrite B1 in P at 2. rewrite skipn_all in P.
      change [tnext (tlast w)] with ([] ++ [tnext (tlast w)]). destruct (tnext_ok start npackets delta _ L1 B3) as (T1 & T2 & T3).
      apply core_extend; [exact P| |auto]. cbn [app Twoway_Proofs.tw_ok]. split; [rewrite T2; lia|]. auto.
  - destruct K3 as (R & B & S). split; [exact R|]. rewrite R. rewrite B in P at 2. rewrite skipn_all in P. split; [exact P|]. destruct L1 as (L1 & _). lia.
  - split; [exact K3|]. rewrite K3. exact P.
Qed.

(** changing one node *)
Lemma set_node_in : forall q g w n, In n (set_node q g w) <-> exists m, In m w /\ n = (if x_seq m =? q then g m else m).
Proof.
  intros q g w n. unfold set_node. rewrite in_map_iff. split; intros (m & A & B); exists m; split; auto.
Qed.
Lemma set_node_ok : forall q g w b, (forall m, tn_ok m -> tn_ok (g m) /\ x_seq (g m) = x_seq m) -> tw_ok b w -> tw_ok b (set_node q g w).
Proof.
  intros q g w b G. revert b. induction w as [|n w IH]; intros b W; [exact I|]. destruct W as (A & B & C). cbn [set_node map Twoway_Proofs.tw_ok].
  destruct (x_seq n =? q).
  - destruct (G n B) as [G1 G2]. split; [congruence|]. split; [exact G1|]. apply IH, C.
  - split; [exact A|]. split; [exact B|]. apply IH, C.
Qed.
Lemma set_node_length : forall q g w, length (set_node q g w) = length w.
Proof. intros. apply map_length. Qed.

Lemma core_hit : forall b f w recs out skip r, core b f w recs out skip -> tw_is_lost r = false -> b <= r_seq (tw_sent r) < f ->
  core b f (set_node (r_seq (tw_sent r)) mark_hit w) (recs ++ [r]) out skip.
Proof.
  intros b f w recs out skip r C L Q. set (q := r_seq (tw_sent r)) in *. destruct C as [C1 C2 C3 C4 C5 C6 C7 C8 C9].
  assert (LQ: forall x, tw_lost_of x (recs ++ [r]) = tw_lost_of x recs) by (intros; rewrite tw_lost_app, tw_lost_recv by exact L; lia).
  assert (RQ: forall x, tw_received_of x (recs ++ [r]) = (tw_received_of x recs + if (q =? x)%Z then 1 else 0)%nat)
    by (intros; rewrite tw_received_app, tw_received_recv by exact L; reflexivity).
  split; auto; rewrite ?set_node_length; auto.
  - apply set_node_ok; [|exact C3]. intros m M. split; [exact M|reflexivity].
  - intros n I. apply set_node_in in I as (m & I & ->). destruct (C4 m I) as (M1 & M2 & M3 & M4).
    destruct (Z.eqb_spec (x_seq m) q) as [e|e]; unfold ninv, mark_hit; cbn [x_seq x_hit x_sent x_abs]; rewrite LQ, RQ.
    + split; [exact M1|]. split; [intros _; left; rewrite e, Z.eqb_refl; lia|]. split; [discriminate|]. cbn [x_rel]. intros S. destruct (M4 S) as [(X & _ & Y)|X]; auto.
    + replace (q =? x_seq m) with false by lia. rewrite Nat.add_0_r. auto.
  - intros n I F. apply set_node_in in I as (m & I & ->). destruct (Z.eqb_spec (x_seq m) q) as [e|e]; [cbn [mark_hit x_seq] in F; lia|]. auto.
  - intros x Hx. unfold past. rewrite LQ, RQ. replace (q =? x) with false by lia. rewrite Nat.add_0_r. apply C6, Hx.
  - intros x Hx. rewrite LQ, RQ. replace (q =? x) with false by lia. rewrite Nat.add_0_r. apply C7, Hx.
  - intros s Is Ws. destruct (C8 s Is Ws) as [A B]. split; [exact A|]. intros n I E. apply set_node_in in I as (m & I & ->).
    destruct (x_seq m =? q); cbn [mark_hit x_seq x_sent x_abs] in *; auto.
Qed.

Lemma core_send : forall b f w recs out skip s, core b f w recs out skip -> f < b + Z.of_nat (length w) -> s_seq s = f -> was_sent (s_res s) = true -> norm (s_time s) ->
  core b (f + 1) (set_node f (mark_sent (s_time s)) w) recs (out ++ [s]) skip.
Proof.
  intros b f w recs out skip s C L Q W Nc. destruct C as [C1 C2 C3 C4 C5 C6 C7 C8 C9].
  split; auto; rewrite ?set_node_length; try lia; auto.
  - apply set_node_ok; [|exact C3]. intros m (M1 & M2 & M3). split; [split; [exact M1|]; split; [exact M2|exact Nc]|reflexivity].
  - intros n I. apply set_node_in in I as (m & I & ->). destruct (C4 m I) as (M1 & M2 & M3 & M4).
    destruct (Z.eqb_spec (x_seq m) f) as [e|e]; unfold ninv, mark_sent; cbn [x_seq x_hit x_sent x_abs].
    + repeat (split; [assumption|]). intros _. right. exists s. split; [apply in_or_app; right; now left|]. rewrite Q, e. auto.
    + repeat (split; [assumption|]). intros S. destruct (M4 S) as [X|X]; [now left|right; now apply sent_at_app].
  - intros n I F. apply set_node_in in I as (m & I & ->). destruct (Z.eqb_spec (x_seq m) f) as [e|e]; [cbn [mark_sent x_seq] in F; lia|]. apply C5; [exact I|lia].
  - intros q Hq. destruct (C6 q Hq) as [(A & B & t & T)|X]; [left; split; [exact A|]; split; [exact B|]; exists t; now apply sent_at_app|now right].
  - intros s' Is Ws. apply in_app_or in Is as [Is|[<-|[]]].
    + destruct (C8 s' Is Ws) as [A B]. split; [lia|]. intros n I E. apply set_node_in in I as (m & I & ->).
      destruct (Z.eqb_spec (x_seq m) f) as [e|e]; cbn [mark_sent x_seq] in *; [lia|auto].
    + split; [lia|]. intros n I E. apply set_node_in in I as (m & I & ->). destruct (Z.eqb_spec (x_seq m) f) as [e|e]; cbn [mark_sent x_seq x_sent x_abs] in *; [auto|lia].
Qed.

Lemma core_attempt : forall b f w recs out skip s, core b f w recs out skip -> was_sent (s_res s) = false -> core b f w recs (out ++ [s]) skip.
Proof.
  intros b f w recs out skip s C W. destruct C as [C1 C2 C3 C4 C5 C6 C7 C8 C9]. split; auto.
  - intros n I. destruct (C4 n I) as (M1 & M2 & M3 & M4). unfold ninv. repeat (split; [assumption|]). intros S. destruct (M4 S) as [X|X]; [now left|right; now apply sent_at_app].
  - intros q Hq. destruct (C6 q Hq) as [(A & B & t & T)|X]; [left; split; [exact A|]; split; [exact B|]; exists t; now apply sent_at_app|now right].
  - intros s' Is Ws. apply in_app_or in Is as [Is|[<-|[]]]; [auto|congruence].
Qed.

Lemma core_skip : forall b f w recs out skip cur, core b f w recs out skip -> f < b + Z.of_nat (length w) ->
  core b (f + 1) (set_node f mark_skipped w) recs out (skip ++ [(f, cur)]).
Proof.
  intros b f w recs out skip cur C L. destruct C as [C1 C2 C3 C4 C5 C6 C7 C8 C9].
  split; auto; rewrite ?set_node_length; try lia; auto.
  - apply set_node_ok; [|exact C3]. intros m M. split; [exact M|reflexivity].
  - intros n I. apply set_node_in in I as (m & I & ->). destruct (C4 m I) as (M1 & M2 & M3 & M4).
    destruct (Z.eqb_spec (x_seq m) f) as [e|e]; unfold ninv, mark_skipped; cbn [x_seq x_hit x_sent x_abs]; rewrite map_app, in_app_iff; cbn [map fst In].
    + split; [exact M1|]. split; [intros _; auto|]. split; [discriminate|]. intros _. left. cbn [x_rel]. destruct (C5 m I ltac:(lia)) as (_ & _ & X). auto.
    + split; [exact M1|]. split; [intros X; destruct (M2 X); auto|]. split; [exact M3|]. intros S. destruct (M4 S) as [(X & Y & V)|X]; auto.
  - intros n I F. apply set_node_in in I as (m & I & ->). destruct (Z.eqb_spec (x_seq m) f) as [e|e]; [cbn [mark_skipped x_seq] in F; lia|]. apply C5; [exact I|lia].
  - intros q Hq. unfold past. rewrite map_app, in_app_iff. destruct (C6 q Hq) as [X|[X [Y|Y]]]; auto.
  - intros s' Is Ws. destruct (C8 s' Is Ws) as [A B]. split; [lia|]. intros n I E. apply set_node_in in I as (m & I & ->).
    destruct (Z.eqb_spec (x_seq m) f) as [e|e]; cbn [mark_skipped x_seq] in *; [lia|auto].
  - intros x Hx. apply in_app_or in Hx as [Hx|[<-|[]]]; [specialize (C9 x Hx); lia|cbn; lia].
Qed.

Lemma core_on : forall b f w recs out skip, core b f w recs out skip -> f + 1 <= b + Z.of_nat (length w) -> core b (f + 1) w recs out skip.
Proof.
  intros b f w recs out skip C L. destruct C as [C1 C2 C3 C4 C5 C6 C7 C8 C9]. split; auto; try lia.
  - intros n I F. apply C5; [exact I|lia].
  - intros s Is Ws. destruct (C8 s Is Ws) as [A B]. split; [lia|exact B].
Qed.
End T.
