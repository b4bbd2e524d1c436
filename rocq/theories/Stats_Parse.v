(** Whole summaries of one-way sessions. *)
From Coq Require Import ZArith List Bool Lia ZifyBool ZifyNat Arith.
From Verif Require Import Base BaseLemmas Arith_Model Time_Model Wire_Model Wire_Spec File_Model File_Spec File_Proofs File_Updates Sender_Spec Receiver_Spec
  Stats_Model Stats_Spec Stats_Proofs Stats_Iter.
Import ListNotations.
Open Scope Z_scope.
Ltac Zify.zify_post_hook ::= Z.div_mod_to_equations.

Lemma first_node_eq : forall bck first last k, bck = true \/ first <= last -> first_node bck first last k =
  if (match end_seq (buf bck k) with Some _ => first <=? 0 | None => false end) then None
  else Some (set_buf bck (mkBuf [mkPkt first (p_endnum k) 0 false] (match end_seq (buf bck k) with None => None | Some _ => Some 0 end) (b_isctx (buf bck k))) k).
Proof.
  intros bck first last k L. unfold first_node, alloc_ok. set (es := end_seq (buf bck k)). unfold end_seq. cbn [b_list b_end b_isctx].
  replace (negb bck && (last <? first)) with false by (destruct bck; cbn [negb andb]; lia). cbn [orb].
  destruct es; [destruct (first <=? 0)|]; reflexivity.
Qed.

Section Parse.
Context {start timeout npackets rec_size : Z} {skips : list skiprec} {delta : nat -> Z} {rlistlen : nat} {bucket : timestamp -> timestamp -> Z}.
Notation callback := (callback timeout rec_size delta rlistlen bucket).
Notation prepare := (prepare start skips delta rlistlen).
Notation parse := (parse start timeout npackets rec_size skips delta rlistlen bucket).
Notation sch := (sched_stamp start delta).
Notation Inv := (@Inv start timeout rec_size skips delta rlistlen bucket).
Notation usable := (@usable start delta rlistlen).
Notation justified := (@justified start timeout delta).
Notation thresh := (@thresh timeout).

Lemma draw_all : forall n m e, (m = 0%nat -> e = start) -> ((0 < m)%nat -> e = sch (Z.of_nat m - 1)) -> 0 <= start < 2^64 ->
  (forall k, 0 <= delta k) ->
  draw delta n m e = ((m + n)%nat, if (m + n =? 0)%nat then start else sch (Z.of_nat (m + n) - 1)).
Proof.
  induction n as [|n IH]; intros m e E0 E1 S0 D0; cbn [draw].
  - rewrite Nat.add_0_r. f_equal. destruct m as [|m]; [now apply E0|]. cbn [Nat.eqb]. apply E1. lia.
  - rewrite IH; [f_equal; [lia|]| discriminate | | exact S0 | exact D0].
    + replace (S m + n)%nat with (m + S n)%nat by lia. reflexivity.
    + intros _. replace (Z.of_nat (S m) - 1) with (Z.of_nat m) by lia. destruct m as [|m].
      * rewrite (E0 eq_refl). unfold OWPNum64Add, sched_stamp, u64. cbn. reflexivity.
      * rewrite E1 by lia. replace (Z.of_nat (S m) - 1) with (Z.of_nat m) by lia. apply (@sch_next start delta).
Qed.

Lemma prepare_inv : forall begin first last odata g used, 0 <= start < 2^64 -> (forall k, 0 <= delta k) -> 0 <= first <= last -> first < 2^32 - 1 -> usable used g ->
  if used && (first =? 0) then prepare begin first last odata g = None
  else exists g', prepare begin first last odata g = Some g' /\ Inv first last (Z.max begin odata) [] first g'.
Proof.
  intros begin first last odata g used ST DE FL FB (N0 & OI & ON & I0 & GE & EN & US). unfold Stats_Model.prepare.
  replace (first =? 4294967295) with false by lia.
  set (k0 := g_pk g) in *. set (reset := (first =? 0) || (first <? b_isctx (p_fwd k0))).
  set (isctx := if reset then 0 else b_isctx (p_fwd k0)).
  assert (DR: draw delta (Z.to_nat (first + 1 - isctx)) (if reset then O else p_gen k0) (if reset then start else p_endnum k0) = (Z.to_nat (first + 1), sch first)).
  { rewrite draw_all; auto.
    - assert (X: ((if reset then 0 else p_gen k0) + Z.to_nat (first + 1 - isctx) = Z.to_nat (first + 1))%nat) by (unfold isctx, reset in *; destruct (_ || _) eqn:E; lia).
      rewrite X. f_equal. replace (Z.to_nat (first + 1) =? 0)%nat with false by lia. f_equal. lia.
    - destruct reset; [reflexivity|]. rewrite GE, EN. intros X. replace (b_isctx (p_fwd k0) =? 0) with true by lia. reflexivity.
    - destruct reset; [intros; lia|]. rewrite GE, EN. intros X. replace (b_isctx (p_fwd k0) =? 0) with false by lia. f_equal. lia. }
  rewrite DR. replace (Z.max isctx (first + 1)) with (first + 1) by (unfold isctx, reset; destruct (_ || _) eqn:E; lia).
  set (k1 := mkPk _ _ _ _ _ _ _ _ _).
  assert (E1: end_seq (p_fwd k1) = end_seq (p_fwd k0)) by reflexivity.
  assert (E2: end_seq (p_bck k1) = end_seq (p_bck k0)) by reflexivity.
  rewrite (first_node_eq false first last k1) by lia. cbn [buf]. rewrite E1.
  destruct used; cbn [andb].
  - destruct US as (U1 & U2). destruct (end_seq (p_fwd k0)) as [e1|]; [|now destruct U1].
    destruct (Z.eqb_spec first 0) as [FZ|FZ]; [replace (first <=? 0) with true by lia; reflexivity|]. replace (first <=? 0) with false by lia.
    rewrite (first_node_eq true) by auto. match goal with |- context[end_seq (buf true ?k)] => change (end_seq (buf true k)) with (end_seq (p_bck k1)) end.
    rewrite E2. destruct (end_seq (p_bck k0)) as [e2|]; [|now destruct U2]. replace (first <=? 0) with false by lia.
    eexists. split; [reflexivity|]. unfold Stats_Iter.Inv. cbn [g_first g_last g_sent g_pk g_ro g_hist g_ttl g_sync g_start_time g_i g_begin g_next].
    cbn [relevant arrived lost filter map rev length distinct nodup copies first_copies forallb first_from].
    split. { split; [reflexivity|]. split; [reflexivity|]. split; [now left|]. unfold pk_inv, fwd, top, counted, sums, skips_ok.
      cbn [set_buf p_fwd p_bck b_list b_isctx p_gen p_endnum p_skips p_dups0 p_dups1 p_lost length dsum lsum k_seen k_lost arrived lost filter k1].
      split.
      { split; [discriminate|]. split. { intros [|[|i]] p X; cbn in X; try discriminate. injection X as <-. cbn. lia. }
        split; [lia|]. split; [lia|]. split; [lia|]. split; [f_equal; lia|]. split; [f_equal; lia|]. split; [|intros r []].
        constructor; [|constructor]. unfold node_ok. cbn. auto. }
      split; [split; [intros r []|intros q; left; reflexivity]|]. split; [split; reflexivity|]. split; [split; auto|]. split; [|reflexivity]. eauto. }
    split; [reflexivity|]. split.
    { unfold ring, get. cbn [o_seqno o_n o_index o_num length]. rewrite !repeat_length. repeat (split; [first [assumption|reflexivity|lia]|]).
      split; intros i Hi; rewrite nth_repeat; [destruct i|]; reflexivity. }
    split; [split; [constructor|intros x []]|]. split; [reflexivity|]. split; [reflexivity|]. split; [intros t T; rewrite nth_repeat; reflexivity|]. auto 10.
  - destruct US as (U1 & U2). rewrite U1.
    rewrite (first_node_eq true) by auto. match goal with |- context[end_seq (buf true ?k)] => change (end_seq (buf true k)) with (end_seq (p_bck k1)) end.
    rewrite E2, U2.
    eexists. split; [reflexivity|]. unfold Stats_Iter.Inv. cbn [g_first g_last g_sent g_pk g_ro g_hist g_ttl g_sync g_start_time g_i g_begin g_next].
    cbn [relevant arrived lost filter map rev length distinct nodup copies first_copies forallb first_from].
    split. { split; [reflexivity|]. split; [reflexivity|]. split; [now left|]. unfold pk_inv, fwd, top, counted, sums, skips_ok.
      cbn [set_buf p_fwd p_bck b_list b_isctx p_gen p_endnum p_skips p_dups0 p_dups1 p_lost length dsum lsum k_seen k_lost arrived lost filter k1].
      split.
      { split; [discriminate|]. split. { intros [|[|i]] p X; cbn in X; try discriminate. injection X as <-. cbn. lia. }
        split; [lia|]. split; [lia|]. split; [lia|]. split; [f_equal; lia|]. split; [f_equal; lia|]. split; [|intros r []].
        constructor; [|constructor]. unfold node_ok. cbn. auto. }
      split; [split; [intros r []|intros q; left; reflexivity]|]. split; [split; reflexivity|]. split; [split; auto|]. split; [|reflexivity]. eauto. }
    split; [reflexivity|]. split.
    { unfold ring, get. cbn [o_seqno o_n o_index o_num length]. rewrite !repeat_length. repeat (split; [first [assumption|reflexivity|lia]|]).
      split; intros i Hi; rewrite nth_repeat; [destruct i|]; reflexivity. }
    split; [split; [constructor|intros x []]|]. split; [reflexivity|]. split; [reflexivity|]. split; [intros t T; rewrite nth_repeat; reflexivity|]. auto 10.
Qed.

(** what can be wrong with record [r] after the records [done] *)
Definition misfit (first last : Z) (done : list datarec) (r : datarec) : Prop :=
  in_range first last r = true /\
  ((exists lo, justified first last done lo /\ r_seq r < lo) \/ (is_lost r = false /\ sch (r_seq r) < thresh r) \/
   (is_lost r = true /\ 0 < received_of (r_seq r) (relevant first last skips done))%nat \/
   (is_lost r = false /\ 0 < lost_of (r_seq r) (relevant first last skips done))%nat).
Lemma visit_inv : forall todo done first last begin lo g, 0 <= first -> 0 < begin -> 0 <= rec_size -> Forall (fun r => 0 <= r_ttl r < 256) todo ->
  Inv first last begin done lo g ->
  let '(v, rc, s') := visit callback todo (Some g) in
  exists g', s' = Some g' /\
    ((rc = 0 /\ exists lo', Inv first last begin (done ++ todo) lo' g') \/
     (rc = -1 /\ usable true g' /\ exists a r b, todo = a ++ r :: b /\ misfit first last (done ++ a) r)).
Proof.
  induction todo as [|r todo IH]; intros done first last begin lo g F0 B0 RS TT I; cbn [visit].
  - exists g. split; [reflexivity|]. left. split; [reflexivity|]. rewrite app_nil_r. eauto.
  - apply Forall_cons_iff in TT. destruct TT as (TR & TT). unfold Stats_Model.callback at 1.
    pose proof (step_inv first last begin done lo g r F0 B0 RS TR I) as ST. destruct (iterate _ _ _ _ _ r g) as [rc g1|]; [|contradiction].
    destruct ST as [(-> & lo' & I')|(-> & US & IR & WHY)].
    + cbn [Z.eqb]. specialize (IH (done ++ [r]) first last begin lo' g1 F0 B0 RS TT I').
      destruct (visit callback todo (Some g1)) as [[v rc] s']. destruct IH as (g' & -> & IH). exists g'. split; [reflexivity|].
      destruct IH as [(-> & lo2 & I2)|(-> & US & a & x & b & -> & W)].
      * left. split; [reflexivity|]. exists lo2. rewrite <- app_assoc in I2. exact I2.
      * right. split; [reflexivity|]. split; [exact US|]. exists (r :: a), x, b. split; [reflexivity|]. rewrite <- app_assoc in W. exact W.
    + cbn [Z.eqb]. exists g1. split; [reflexivity|]. right. split; [reflexivity|]. split; [exact US|]. exists [], r, todo. split; [reflexivity|].
      rewrite app_nil_r. split; [exact IR|]. destruct WHY as [W|W]; [left; exists lo; split; [|exact W]; apply I|right; exact W].
Qed.

Lemma inv_usable : forall first last begin recs lo g, 0 <= first -> Inv first last begin recs lo g -> usable true g.
Proof.
  intros first last begin recs lo g F0 ((_ & _ & _ & PK) & _ & RI & _). destruct PK as (F & _ & _ & _ & (e & BK) & _).
  destruct (fwd_usable _ _ _ _ _ F0 F) as (U1 & U2 & U3 & U4). destruct RI as (R1 & _ & _ & R4 & R5 & _). unfold Stats_Iter.usable.
  repeat (split; [assumption || lia|]). rewrite BK. discriminate.
Qed.

(** the records looked at *)
Definition nrecs (odata oskip limit : Z) (f : list Z) (begin : Z) : Z :=
  let fileend := if odata <? oskip then oskip else Z.of_nat (length f) in
  let n := u32 (Z.quot (fileend - Z.max begin odata) rec_size) in if (0 <? limit) && (limit <? n) then limit else n.
(** everything a successful summary says *)
Definition summary (first last begin : Z) (recs : list datarec) (g : stats) : Prop :=
  let R := relevant first last skips recs in
  (g_first g = first /\ g_last g = last) /\
  g_sent g = distinct (arrived R) + Z.of_nat (length (lost R)) /\
  p_dups0 (g_pk g) = Z.of_nat (length (arrived R)) - distinct (arrived R) /\
  p_lost (g_pk g) = distinct (lost R) /\
  ring (n := rlistlen) (rev (map r_seq (arrived R))) (g_ro g) /\
  hist_ok (g_hist g) /\ (forall b, samples (g_hist g) b = count (fun r => bucket (r_send r) (r_recv r) =? b) (copies R)) /\
  length (g_ttl g) = 256%nat /\ (forall t, 0 <= t < 256 -> nth (Z.to_nat t) (g_ttl g) 0 = count (fun r => r_ttl r =? t) (copies R)) /\
  g_sync g = forallb synced R /\
  (g_begin g = begin /\ g_next g = match first_from last recs with Some i => begin + Z.of_nat i * rec_size | None => 0 end) /\
  g_start_time g = sch first /\ p_end_time (g_pk g) = sch (Z.max first (last - 1)) /\ counted (skips := skips) R.

Lemma parse_result : forall version odata oskip limit f begin first last last' used g recs,
  0 <= start < 2^64 -> (forall k, 0 <= delta k) -> 0 < odata -> 0 <= rec_size -> version = 0 \/ version = 2 \/ version = 3 ->
  0 <= first <= last' -> first < 2^32 - 1 -> last' <= npackets -> last' = (if last =? 4294967295 then npackets else last) ->
  usable used g -> readable (decode_datarec version) f (Z.to_nat (Z.max begin odata)) (if version =? 3 then 25 else 24) (Z.to_nat (nrecs odata oskip limit f begin)) recs ->
  Forall (fun r => 0 <= r_ttl r < 256) recs ->
  match parse version odata oskip limit f begin first last g with
  | PCrash => used = true /\ first = 0
  | PFail g' => usable true g' /\ ((length recs < Z.to_nat (nrecs odata oskip limit f begin))%nat \/ exists a r b, recs = a ++ r :: b /\ misfit first last' a r)
  | POk g' => usable true g' /\ length recs = Z.to_nat (nrecs odata oskip limit f begin) /\ summary first last' (Z.max begin odata) recs g'
  end /\ (parse version odata oskip limit f begin first last g = PCrash <-> used = true /\ first = 0).
Proof.
  intros version odata oskip limit f begin first last last' used g recs ST DE OD RS VE FL FB LP LE US RD TT.
  unfold Stats_Model.parse. rewrite <- LE. replace ((last' <? first) || (npackets <? last')) with false by lia.
  pose proof (prepare_inv begin first last' odata g used ST DE FL FB US) as P.
  destruct (used && (first =? 0)) eqn:CR.
  { rewrite P. assert (used = true /\ first = 0) by (apply andb_true_iff in CR; split; [tauto|lia]). tauto. }
  assert (NC: ~ (used = true /\ first = 0)) by (intros (-> & ->); discriminate).
  destruct P as (g1 & P & I). rewrite P. assert (GB: g_begin g1 = Z.max begin odata) by (destruct I as (_ & _ & _ & _ & _ & _ & _ & _ & _ & X & _); exact X).
  rewrite GB. fold (nrecs odata oskip limit f begin).
  pose proof (parse_visit datarec _ callback (decode_datarec version) f _ _ _ recs (Some g1) RD) as PV.
  pose proof (visit_inv recs [] first last' (Z.max begin odata) first g1 ltac:(lia) ltac:(lia) RS TT I) as VI.
  destruct (visit callback recs (Some g1)) as [[v rc] s'] eqn:V.
  assert (PR: parse_records callback version (Z.to_nat (Z.max begin odata)) (Z.to_nat (nrecs odata oskip limit f begin)) f (Some g1) =
    Some ((if rc =? 0 then (length recs =? Z.to_nat (nrecs odata oskip limit f begin))%nat else 0 <=? rc), s')).
  { destruct VE as [-> | [-> | ->]]; unfold parse_records; cbn [Z.eqb Pos.eqb orb] in *; now rewrite PV. }
  rewrite PR. clear PR PV. destruct VI as (g' & -> & [(-> & lo & I')|(-> & US' & a & r & b & E & W)]).
  2: { cbn [Z.eqb Z.leb Z.compare]. split; [split; [exact US'|right; exists a, r, b; cbn [app] in W; auto]|]. split; [discriminate|tauto]. }
  cbn [Z.eqb app] in *. destruct (Nat.eqb_spec (length recs) (Z.to_nat (nrecs odata oskip limit f begin))) as [LN|LN].
  2: { split; [split; [eapply inv_usable; [|exact I']; lia|left; destruct RD as (RD & _); lia]|]. split; [discriminate|tauto]. }
  pose proof I' as ((GF & GL & JU & PK) & SE & RI & HO & HI & TL & TTL & SY & GI & GB' & GN & GS). destruct PK as (F & C & SU & SK & (e & BK) & D1).
  rewrite GF, GL. pose proof F as (NE & RN & L0 & L1 & _).
  destruct (all_fwd (fuel_for first last') first last' _ lo _ _ (g_pk g') ltac:(lia) F C SU SK ltac:(unfold fuel_for; lia)) as (k1 & A0 & A1 & A2 & A3 & A4 & A5 & A6 & A7).
  rewrite A0. destruct (all_bck (delta := delta) (fuel_for first last') first last' first k1 ltac:(lia) ltac:(unfold bck_ok; rewrite A4, BK; eauto) ltac:(unfold fuel_for; lia))
    as (k2 & B0 & B1 & B2 & B3 & B4 & B5 & B6 & B7 & B8).
  rewrite B0. split; [|split; [discriminate|tauto]].
  assert (ET: p_end_time k2 = sch (Z.max first (last' - 1))).
  { rewrite B7, A4, BK. cbn [b_list hd k_time]. destruct (Z.ltb_spec (first + 1) last') as [X|X]; [|f_equal; lia].
    destruct A1 as (_ & _ & _ & ->). rewrite A7. f_equal. lia. }
  split.
  { destruct (emptied_usable k1 A1) as (U1 & U2 & U3 & U4). destruct RI as (R1 & _ & _ & R4 & R5 & _). unfold Stats_Iter.usable. cbn [g_pk g_ro].
    rewrite B1, B2, B3, B8. repeat (split; [assumption || lia|]). discriminate. }
  split; [exact LN|]. unfold summary. cbn [g_first g_last g_sent g_pk g_ro g_hist g_ttl g_sync g_start_time g_begin g_next].
  rewrite B4, B5, A2, A3. auto 20.
Qed.


End Parse.
Lemma filter_le : forall A (f g : A -> bool) l, (length (filter g (filter f l)) <= length (filter g l))%nat.
Proof. induction l as [|x l IH]; cbn [filter]; [lia|]. destruct (f x) eqn:E1; destruct (g x) eqn:E2; cbn [filter length]; rewrite ?E2; cbn [length]; lia. Qed.
Section Parse2.
Context {start timeout npackets : Z} {skips : list skiprec} {delta : nat -> Z}.
Notation sch := (sched_stamp start delta).
(** ** Histories as the receiver writes them *)
Lemma total_mono : forall p q, (forall n, 0 <= delta n) -> (p <= q)%nat -> total delta p <= total delta q.
Proof.
  intros p q D L. induction L as [|q L IH]; [lia|]. cbn [total]. specialize (D (S q)). lia.
Qed.
Lemma sch_mono : forall p q, no_wrap start npackets delta -> 0 <= p <= q -> q < npackets -> sch p <= sch q.
Proof.
  intros p q (S0 & D & W) P Q. unfold sched_stamp.
  pose proof (total_mono (Z.to_nat p) (Z.to_nat q) D ltac:(lia)). pose proof (total_mono (Z.to_nat q) (Z.to_nat (npackets - 1)) D ltac:(lia)).
  assert (T0: forall n, 0 <= total delta n). { induction n as [|n IH]; cbn [total]; [apply D|]. pose proof (D (S n)). lia. }
  pose proof (T0 (Z.to_nat p)). rewrite !Z.mod_small by lia. lia.
Qed.

Lemma chronicle_fits : forall first last recs a r b, no_wrap start npackets delta -> chronicle start timeout delta recs -> 0 <= first -> last <= npackets ->
  recs = a ++ r :: b -> ~ misfit (start := start) (timeout := timeout) (skips := skips) (delta := delta) first last a r.
Proof.
  intros first last recs a r b NW (CH1 & CH2) F0 LN E (IR & M). unfold in_range in IR.
  assert (NR: nth_error recs (length a) = Some r) by (rewrite E, nth_error_app2, Nat.sub_diag by lia; reflexivity).
  assert (NO: forall q, (received_of q recs = received_of q a + received_of q (r :: b))%nat /\ (lost_of q recs = lost_of q a + lost_of q (r :: b))%nat).
  { intros q. rewrite E. unfold received_of, lost_of. rewrite !filter_app, !app_length. auto. }
  destruct (NO (r_seq r)) as (N1 & N2). destruct (CH1 (r_seq r)) as (C1 & C2).
  destruct M as [(lo & JU & LT)|[(L & M)|[(L & M)|(L & M)]]].
  - destruct JU as [->|((J1 & J2) & x & I & IX & J)]; [lia|]. apply In_nth_error in I. destruct I as (i & I).
    assert (Hi: (i < length a)%nat) by (apply nth_error_Some; congruence).
    assert (NI: nth_error recs i = Some x) by (rewrite E, nth_error_app1 by lia; exact I).
    specialize (CH2 i (length a) x r ltac:(lia) NI NR). destruct (is_lost x); [lia|]. unfold thresh in J.
    pose proof (sch_mono (r_seq r) (lo - 1) NW ltac:(lia) ltac:(lia)). lia.
  - specialize (CH2 (length a) (length a) r r ltac:(lia) NR NR). rewrite L in CH2. unfold thresh in M. lia.
  - pose proof (filter_le _ (fun r => in_range first last r && negb (not_sent skips (r_seq r))) (fun x => (r_seq x =? r_seq r) && negb (is_lost x)) a) as FL.
    unfold relevant, received_of in M. fold (received_of (r_seq r) a) in FL. unfold received_of in N1 at 2.
    assert (1 <= lost_of (r_seq r) (r :: b))%nat. { unfold lost_of. cbn [filter]. rewrite Z.eqb_refl, L. cbn [andb length]. lia. }
    unfold received_of in *. lia.
  - pose proof (filter_le _ (fun r => in_range first last r && negb (not_sent skips (r_seq r))) (fun x => (r_seq x =? r_seq r) && is_lost x) a) as FL.
    unfold relevant, lost_of in M. assert (1 <= received_of (r_seq r) (r :: b))%nat. { unfold received_of. cbn [filter]. rewrite Z.eqb_refl, L. cbn [negb andb length]. lia. }
    unfold lost_of in *. lia.
Qed.
End Parse2.
Lemma create_usable : forall start skips delta rlistlen, (0 < rlistlen)%nat -> usable (start := start) (delta := delta) (rlistlen := rlistlen) false (create start skips rlistlen).
Proof. intros start skips delta rlistlen N. unfold Stats_Iter.usable, create. cbn. repeat (split; [lia || reflexivity|]). reflexivity. Qed.
