From Coq Require Import ZArith List Bool Lia ZifyBool ZifyNat.
From Verif Require Import Base BaseLemmas Arith_Model Arith_Proofs Time_Model Time_Proofs Wire_Model Wire_Spec Wire_Proofs
  Control_Model Control_Spec Control_Proofs File_Proofs Packet_Model Packet_Proofs Sender_Spec Sender_Proofs Receiver_Model Receiver_Spec Receiver_Run
  Reflector_Model Reflector_Spec Reflector_Proofs Twoway_Model Twoway_Spec.
Import ListNotations.
Open Scope Z_scope.
Ltac Zify.zify_post_hook ::= Z.div_mod_to_equations.

(** ** counting *)
Lemma tw_lost_app : forall q a b, tw_lost_of q (a ++ b) = (tw_lost_of q a + tw_lost_of q b)%nat.
Proof. intros. unfold tw_lost_of. now rewrite filter_app, app_length. Qed.
Lemma tw_received_app : forall q a b, tw_received_of q (a ++ b) = (tw_received_of q a + tw_received_of q b)%nat.
Proof. intros. unfold tw_received_of. now rewrite filter_app, app_length. Qed.
Lemma tw_lost_one : forall st n er q, tw_lost_of q [tw_lost st n er] = if x_seq n =? q then 1%nat else 0%nat.
Proof. intros. unfold tw_lost_of, tw_is_lost. cbn. destruct (x_seq n =? q); reflexivity. Qed.
Lemma tw_received_lost : forall st n er q, tw_received_of q [tw_lost st n er] = 0%nat.
Proof. intros. unfold tw_received_of, tw_is_lost. cbn. rewrite andb_false_r. reflexivity. Qed.
Lemma tw_lost_recv : forall r q, tw_is_lost r = false -> tw_lost_of q [r] = 0%nat.
Proof. intros r q R. unfold tw_lost_of. cbn [filter]. rewrite R, andb_false_r. reflexivity. Qed.
Lemma tw_received_recv : forall r q, tw_is_lost r = false -> tw_received_of q [r] = if r_seq (tw_sent r) =? q then 1%nat else 0%nat.
Proof. intros r q R. unfold tw_received_of. cbn [filter]. rewrite R. cbn [negb]. rewrite andb_true_r. destruct (r_seq (tw_sent r) =? q); reflexivity. Qed.

Section T.
Variable start timeout npackets : Z.
Variable delta : nat -> Z.
Hypothesis OK : rsession_ok start timeout npackets delta.
Local Notation tnext := (tnext start delta).
Local Notation textend := (textend start delta).
Local Notation tget := (tget start delta).
Local Notation lost := (tw_lost start).

Definition tn_ok (n : tnode) : Prop :=
  0 <= x_seq n < npackets /\ x_rel n = total delta (Z.to_nat (x_seq n)) mod M64 /\ norm (x_abs n).
Fixpoint tw_ok (b : Z) (w : list tnode) : Prop :=
  match w with [] => True | n :: r => x_seq n = b /\ tn_ok n /\ tw_ok (b + 1) r end.
Definition fresh (n : tnode) : Prop := x_hit n = false /\ x_sent n = false /\ x_abs n = abs_of start (x_rel n).

Lemma abs_norm : forall rel, norm (abs_of start rel).
Proof.
  intros rel. unfold abs_of, OWPTimestampToTimespec. cbn [owptime]. apply num64_ns. apply Z.mod_pos_bound. lia.
Qed.

Lemma tnext_ok : forall n, tn_ok n -> x_seq n + 1 < npackets -> tn_ok (tnext n) /\ x_seq (tnext n) = x_seq n + 1 /\ fresh (tnext n).
Proof.
  intros n (A & B & C) L. unfold Twoway_Model.tnext, tn_ok, fresh. cbn [x_seq x_rel x_abs x_hit x_sent]. split; [|split; [reflexivity|auto]].
  split; [lia|]. split; [|apply abs_norm].
  rewrite B. replace (Z.to_nat (x_seq n + 1)) with (S (Z.to_nat (x_seq n))) by lia. cbn [total].
  unfold OWPNum64Add, u64. rewrite Z.add_mod_idemp_l by lia. reflexivity.
Qed.

Lemma textend_ok : forall k n, tn_ok n -> x_seq n + Z.of_nat k < npackets ->
  tw_ok (x_seq n + 1) (textend k n) /\ length (textend k n) = k /\ Forall fresh (textend k n).
Proof.
  induction k; intros n Hn L; cbn [Twoway_Model.textend tw_ok length]; [auto|].
  destruct (tnext_ok n Hn ltac:(lia)) as (N1 & N2 & N3). destruct (IHk (tnext n) N1 ltac:(lia)) as (I1 & I2 & I3).
  rewrite N2 in I1. split; [auto|]. split; [f_equal; exact I2|]. constructor; assumption.
Qed.

Lemma tw_app : forall w b v, tw_ok b (w ++ v) <-> tw_ok b w /\ tw_ok (b + Z.of_nat (length w)) v.
Proof.
  induction w as [|n w IH]; intros b v; cbn [app tw_ok length].
  - rewrite Z.add_0_r. tauto.
  - rewrite IH. replace (b + 1 + Z.of_nat (length w)) with (b + Z.of_nat (S (length w))) by lia. tauto.
Qed.

Lemma tw_last : forall w b, tw_ok b w -> w <> [] -> tn_ok (tlast w) /\ x_seq (tlast w) = b + Z.of_nat (length w) - 1 /\ In (tlast w) w.
Proof.
  induction w as [|n w IH]; intros b W N; [congruence|]. destruct W as (A & B & C).
  destruct w as [|m w]; [cbn [tlast last length]; cbn; split; [auto|]; split; [lia|auto]|].
  destruct (IH _ C ltac:(discriminate)) as (I1 & I2 & I3).
  replace (tlast (n :: m :: w)) with (tlast (m :: w)) by reflexivity. cbn [length] in *. split; [auto|]. split; [lia|now right].
Qed.

Lemma tw_find : forall w b q, tw_ok b w -> b <= q < b + Z.of_nat (length w) ->
  exists n, find (fun n => x_seq n =? q) w = Some n /\ In n w /\ x_seq n = q.
Proof.
  induction w as [|n w IH]; intros b q W Hq; cbn [length] in Hq; [lia|]. destruct W as (A & B & C). cbn [find].
  destruct (Z.eqb_spec (x_seq n) q) as [e|e]; [exists n; split; [reflexivity|]; split; [now left|exact e]|].
  destruct (IH (b + 1) q C ltac:(lia)) as (m & F1 & F2 & F3). exists m. split; [exact F1|]. split; [now right|exact F3].
Qed.

Lemma tw_in : forall w b n, tw_ok b w -> In n w -> b <= x_seq n < b + Z.of_nat (length w) /\ tn_ok n.
Proof.
  induction w as [|m w IH]; intros b n W I; [contradiction|]. destruct W as (A & B & C). cbn [length]. destruct I as [->|I].
  - split; [lia|exact B].
  - destruct (IH _ n C I). split; [lia|auto].
Qed.

Lemma tw_unique : forall w b n m, tw_ok b w -> In n w -> In m w -> x_seq n = x_seq m -> n = m.
Proof.
  induction w as [|a w IH]; intros b n m W In1 In2 Q; [contradiction|]. destruct W as (A & B & C).
  destruct In1 as [->|In1], In2 as [->|In2]; auto.
  - destruct (tw_in _ _ _ C In2). lia.
  - destruct (tw_in _ _ _ C In1). lia.
  - eapply IH; eauto.
Qed.

Lemma tget_ok : forall w b q, tw_ok b w -> w <> [] -> b <= q < npackets ->
  exists ext n, tget w q = Some (w ++ ext, n) /\ tw_ok b (w ++ ext) /\ Forall fresh ext /\ In n (w ++ ext) /\ x_seq n = q /\ q < b + Z.of_nat (length (w ++ ext)).
Proof.
  intros w b q W N Hq. unfold Twoway_Model.tget. destruct (tw_last w b W N) as (L1 & L2 & _).
  destruct (Z.ltb_spec (x_seq (tlast w)) q) as [l|l].
  - destruct (textend_ok (Z.to_nat (q - x_seq (tlast w))) (tlast w) L1 ltac:(lia)) as (X1 & X2 & X3).
    set (ext := textend (Z.to_nat (q - x_seq (tlast w))) (tlast w)) in *. exists ext.
    assert (WA: tw_ok b (w ++ ext)).
    { apply tw_app. split; [exact W|]. replace (b + Z.of_nat (length w)) with (x_seq (tlast w) + 1) by lia. exact X1. }
    destruct (tw_find _ b q WA ltac:(rewrite app_length; lia)) as (n & F1 & F2 & F3). exists n. rewrite F1. split; [reflexivity|].
    split; [exact WA|]. split; [exact X3|]. split; [exact F2|]. split; [exact F3|]. rewrite app_length. lia.
  - destruct (tw_find _ b q W ltac:(lia)) as (n & F1 & F2 & F3).
    exists [], n. rewrite app_nil_r, F1. split; [reflexivity|]. split; [exact W|]. split; [constructor|]. split; [exact F2|]. split; [exact F3|]. lia.
Qed.

(** ** flushing: some of the first packets, all of them sent, are taken from the queue *)
Definition lost_recs (er : timestamp) (l : list tnode) : list twrec := map (fun n => lost n er) (filter (fun n => negb (x_hit n)) l).

Lemma lost_recs_cons : forall er n l, lost_recs er (n :: l) = (if x_hit n then [] else [lost n er]) ++ lost_recs er l.
Proof. intros. unfold lost_recs. cbn [filter]. destruct (x_hit n); reflexivity. Qed.

Lemma tlast_cons : forall n m w, tlast (n :: m :: w) = tlast (m :: w).
Proof. reflexivity. Qed.

Lemma write_tw_some : forall recs r recs', write_tw recs r = Some recs' -> recs' = recs ++ [r].
Proof. unfold write_tw. intros recs r recs'. destruct (encode_twrec r); [|discriminate]. intros X. injection X as <-. reflexivity. Qed.

Definition past_due (u : option nat) (cur : tspec) (n : tnode) : Prop :=
  x_sent n = true /\ (ts_lt (tw_expect timeout n) cur = true \/ u <> None).

Lemma flush_char : forall fuel j u er cur w recs, w <> [] -> (length w < fuel)%nat ->
  exists k, (k <= length w)%nat /\ Forall (past_due u cur) (firstn k w) /\
  match tflush_loop start timeout npackets delta fuel j u er cur w recs with
  | TFGo w' recs' => recs' = recs ++ lost_recs er (firstn k w) /\
      (((k < length w)%nat /\ w' = skipn k w) \/ (k = length w /\ w' = [tnext (tlast w)] /\ x_seq (tlast w) + 1 < npackets)) /\
      (u = None -> exists h r, w' = h :: r /\ ts_lt (tw_expect timeout h) cur && x_sent h = false)
  | TFOver recs' => recs' = recs ++ lost_recs er (firstn k w) /\ k = length w /\ npackets <= x_seq (tlast w) + 1
  | TFErr recs' => recs' = recs ++ lost_recs er (firstn k w)
  end.
Proof.
  induction fuel as [|fuel IH]; intros j u er cur w recs N L; [lia|]. destruct w as [|b rest]; [congruence|].
  cbn [tflush_loop]. cbn [length] in L.
  set (cur' := if usr2_seen u j then ts_add (ts_add (0, 0) (tw_expect timeout b)) (tw_timeout timeout) else cur).
  assert (CU: cur' = cur \/ u <> None).
  { unfold cur', usr2_seen. destruct u; [right; discriminate|now left]. }
  clearbody cur'.
  destruct (ts_lt (tw_expect timeout b) cur' && x_sent b) eqn:EP.
  2: { exists 0%nat. split; [lia|]. split; [constructor|]. split; [cbn; now rewrite app_nil_r|]. split; [left; split; [cbn; lia|reflexivity]|].
       intros U. destruct CU as [->|CU]; [|contradiction]. exists b, rest. split; [reflexivity|]. exact EP. }
  apply andb_true_iff in EP. destruct EP as [E1 E2].
  assert (PB: past_due u cur b). { split; [exact E2|]. destruct CU as [->|CU]; [now left|now right]. }
  assert (SH: forall l, Forall (past_due u cur') l -> Forall (past_due u cur) l).
  { intros l. apply Forall_impl. intros n [A B]. split; [exact A|]. destruct CU as [->|CU]; [exact B|now right]. }
  destruct (if x_hit b then Some recs else write_tw recs (lost b er)) as [recs1|] eqn:EW.
  2: { exists 0%nat. split; [lia|]. split; [constructor|]. cbn. now rewrite app_nil_r. }
  assert (R1: recs1 = recs ++ (if x_hit b then [] else [lost b er])).
  { destruct (x_hit b); [injection EW as <-; now rewrite app_nil_r|now apply write_tw_some]. }
  destruct rest as [|c rest].
  - destruct (Z.ltb_spec (x_seq b + 1) npackets) as [l|l].
    + exists 1%nat. cbn [firstn length]. split; [lia|]. split; [auto|]. destruct fuel as [|fuel]; [cbn in L; lia|]. cbn [tflush_loop].
      assert (FS: x_sent (tnext b) = false) by reflexivity. rewrite FS, andb_false_r.
      split; [rewrite R1, lost_recs_cons; cbn; now rewrite app_nil_r|]. split; [right; split; [reflexivity|]; split; [reflexivity|exact l]|].
      intros ->. exists (tnext b), []. split; [reflexivity|]. rewrite FS. apply andb_false_r.
    + exists 1%nat. cbn [firstn length]. split; [lia|]. split; [auto|]. split; [rewrite R1, lost_recs_cons; cbn; now rewrite app_nil_r|]. split; [reflexivity|]. exact l.
  - destruct (IH (S j) u er cur' (c :: rest) recs1 ltac:(discriminate) ltac:(cbn [length] in *; lia)) as (k & K1 & K2 & K3).
    exists (S k). cbn [firstn]. split; [cbn [length] in *; lia|]. split; [constructor; [exact PB|apply SH; exact K2]|].
    destruct (tflush_loop start timeout npackets delta fuel (S j) u er cur' (c :: rest) recs1) as [w' recs'|recs'|recs'].
    + destruct K3 as (A & B & C). split; [rewrite A, R1, <- app_assoc, lost_recs_cons; reflexivity|]. split.
      * destruct B as [[B1 B2]|(B1 & B2 & B3)]; [left; split; [cbn [length] in *; lia|exact B2]|].
        right. split; [cbn [length] in *; lia|]. rewrite tlast_cons. auto.
      * intros U. destruct CU as [->|CU]; [auto|contradiction].
    + destruct K3 as (A & B & C). split; [rewrite A, R1, <- app_assoc, lost_recs_cons; reflexivity|]. rewrite tlast_cons. split; [cbn [length] in *; lia|exact C].
    + rewrite K3, R1, <- app_assoc, lost_recs_cons. reflexivity.
Qed.
End T.
