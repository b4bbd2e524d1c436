(** Whole summaries of two-way sessions. *)
From Coq Require Import ZArith List Bool Lia ZifyBool ZifyNat Arith.
From Verif Require Import Base BaseLemmas Arith_Model Time_Model Wire_Model Wire_Spec File_Model File_Spec File_Proofs File_Updates Sender_Spec Receiver_Spec
  Stats_Model Stats_Spec Stats_Proofs Stats_Iter Stats_Parse StatsTW_Model StatsTW_Spec StatsTW_Proofs StatsTW_Inv StatsTW_Iter.
Import ListNotations.
Open Scope Z_scope.
Ltac Zify.zify_post_hook ::= Z.div_mod_to_equations.

Definition octet_fields (r : twrec) : Prop := 0 <= r_ttl (tw_sent r) < 256 /\ 0 <= r_ttl (tw_refl r) < 256 /\ 0 <= reply r < 2^32.

Section Parse.
Context {start timeout npackets rec_size : Z} {delta : nat -> Z} {bucket : timestamp -> timestamp -> Z} {negative : timestamp -> timestamp -> bool} {bucket_rt : twrec -> Z}.
Notation sch := (sched_stamp start delta).
Notation tcallback := (tcallback timeout rec_size delta bucket negative bucket_rt).
Notation tprepare := (tprepare start delta).
Notation tparse := (tparse start timeout npackets rec_size delta bucket negative bucket_rt).
Notation TInv := (@TInv start timeout rec_size delta bucket negative bucket_rt).
Notation tfigs := (@tfigs start rec_size delta bucket negative bucket_rt).
Notation tmisfit := (@tmisfit start timeout delta).

Lemma tprepare_inv : forall begin first last odata, 0 <= start < 2^64 -> (forall k, 0 <= delta k) -> 0 <= first <= last -> first < 2^32 - 1 ->
  exists g, tprepare begin first last odata = Some g /\ TInv first last (Z.max begin odata) [] g.
Proof.
  intros begin first last odata ST DE FL FB. unfold StatsTW_Model.tprepare. replace (first =? 4294967295) with false by lia.
  rewrite (draw_all (start := start)) by (auto; lia). cbn [Nat.add].
  replace (Z.to_nat (first + 1) =? 0)%nat with false by lia. replace (Z.of_nat (Z.to_nat (first + 1)) - 1) with first by lia.
  eexists. split; [reflexivity|]. exists first, first. unfold tbufs, StatsTW_Iter.tfigs. cbn [h_pk h_first h_last h_sent h_rt h_fwd h_bck h_ttl0 h_ttl1 h_sync h_offset h_start_time h_i h_begin h_next].
  cbn [tw_range replies unanswered filter map length firsts forallb existsb first_from].
  split.
  - split; [now left|]. split; [now left|]. split; [|split; [|split; [|split; [|split; [|split]]]]].
    + unfold Fw, flen. cbn [q_fwd tb_list tb_isctx tb_free q_gen q_endnum length]. split; [discriminate|]. split. { intros [|[|i]] p X; cbn in X; try discriminate. injection X as <-. cbn. lia. }
      split; [lia|]. split; [lia|]. split; [lia|]. split; [f_equal; lia|]. split; [f_equal; lia|]. split; [|split; [intros r []|]].
      * constructor; [|constructor]. unfold fnode. cbn. split; [reflexivity|]. split; [reflexivity|]. split; [reflexivity|]. split; [now left|lia].
      * intros a [->|I]; [now left|]. left. cbn [repeat In] in I. lia.
    + unfold Bk, blen. cbn [q_bck tb_list tb_isctx length]. split; [discriminate|]. split. { intros [|[|i]] p X; cbn in X; try discriminate. injection X as <-. cbn. lia. }
      split; [lia|]. split; [lia|]. split; [|intros r []]. constructor; [|constructor]. unfold bnode. cbn. split; [reflexivity|]. split; [reflexivity|]. intros r [].
    + split; reflexivity.
    + reflexivity.
    + split; [left; reflexivity|intros r s []].
    + intros r [].
    + unfold blen. cbn. lia.
  - do 2 (split; [reflexivity|]). split; [reflexivity|].
    assert (H0: forall f, tdelays f [] []) by (intros f; split; [split; [constructor|intros x []]|reflexivity]).
    assert (H1: forall f, tttls f [] (repeat 0 256)) by (intros f; split; [reflexivity|intros t T; rewrite nth_repeat; reflexivity]).
    do 3 (split; [apply H0|]). do 2 (split; [apply H1|]). auto 10.
Qed.

Lemma visit_tinv : forall todo done first last begin g, 0 <= first < 2^32 - 1 -> last < 2^32 -> 0 < begin -> 0 <= rec_size -> Forall octet_fields todo ->
  TInv first last begin done g ->
  let '(v, rc, s') := visit tcallback todo (Some g) in
  exists g', s' = Some g' /\
    ((rc = 0 /\ TInv first last begin (done ++ todo) g') \/ (rc = -1 /\ exists a r b, todo = a ++ r :: b /\ tmisfit first last (done ++ a) r)).
Proof.
  induction todo as [|r todo IH]; intros done first last begin g F0 LB B0 RS TT I; cbn [visit].
  - exists g. split; [reflexivity|]. left. split; [reflexivity|]. rewrite app_nil_r. exact I.
  - apply Forall_cons_iff in TT. destruct TT as ((T0 & T1 & TR) & TT). unfold StatsTW_Model.tcallback at 1.
    pose proof (titerate_inv first last begin done g r F0 LB B0 RS T0 T1 TR I) as ST.
    destruct (StatsTW_Model.titerate _ _ _ _ _ _ r g) as [rc g1|]; [|contradiction].
    destruct ST as [(-> & I')|(-> & WHY)].
    + cbn [Z.eqb]. specialize (IH (done ++ [r]) first last begin g1 F0 LB B0 RS TT I').
      destruct (visit tcallback todo (Some g1)) as [[v rc] s']. destruct IH as (g' & -> & IH). exists g'. split; [reflexivity|].
      destruct IH as [(-> & I2)|(-> & a & x & b & -> & W)].
      * left. split; [reflexivity|]. rewrite <- app_assoc in I2. exact I2.
      * right. split; [reflexivity|]. exists (r :: a), x, b. split; [reflexivity|]. rewrite <- app_assoc in W. exact W.
    + cbn [Z.eqb]. exists g1. split; [reflexivity|]. right. split; [reflexivity|]. exists [], r, todo. split; [reflexivity|]. rewrite app_nil_r. exact WHY.
Qed.

(** everything a successful summary says *)
Definition tsummary (first last begin : Z) (recs : list twrec) (g : tstats) : Prop :=
  let R := tw_range first last recs in
  tfigs first last begin recs g /\
  q_lost (h_pk g) = packets (unanswered R) /\
  q_dups0 (h_pk g) = reflections (replies R) - packets (replies R) /\
  q_dups1 (h_pk g) = Z.of_nat (length (replies R)) - reflections (replies R) /\ sane R /\ (forall r, In r (replies R) -> first <= reply r).

Lemma tparse_result : forall odata oskip limit f begin first last last' recs,
  0 <= start < 2^64 -> (forall k, 0 <= delta k) -> 0 < odata -> 0 <= rec_size -> 0 <= npackets < 2^32 ->
  0 <= first <= last' -> first < 2^32 - 1 -> last' <= npackets -> last' = (if last =? 4294967295 then npackets else last) ->
  readable (decode_twrec 131) f (Z.to_nat (Z.max begin odata)) 50 (Z.to_nat (nrecs (rec_size := rec_size) odata oskip limit f begin)) recs ->
  Forall octet_fields recs ->
  match tparse 131 odata oskip limit f begin first last with
  | TPCrash => False
  | TPFail => (length recs < Z.to_nat (nrecs (rec_size := rec_size) odata oskip limit f begin))%nat \/ exists a r b, recs = a ++ r :: b /\ tmisfit first last' a r
  | TPOk g => length recs = Z.to_nat (nrecs (rec_size := rec_size) odata oskip limit f begin) /\ tsummary first last' (Z.max begin odata) recs g
  end.
Proof.
  intros odata oskip limit f begin first last last' recs ST DE OD RS NP FL FB LP LE RD TT.
  unfold StatsTW_Model.tparse. rewrite <- LE. replace ((last' <? first) || (npackets <? last')) with false by lia.
  destruct (tprepare_inv begin first last' odata ST DE FL FB) as (g1 & P & I). rewrite P.
  assert (GB: h_begin g1 = Z.max begin odata) by (destruct I as (lo & lob & _ & FG); apply FG).
  rewrite GB. fold (nrecs (rec_size := rec_size) odata oskip limit f begin).
  pose proof (parse_visit twrec _ tcallback (decode_twrec 131) f _ _ _ recs (Some g1) RD) as PV.
  pose proof (visit_tinv recs [] first last' (Z.max begin odata) g1 ltac:(lia) ltac:(lia) ltac:(lia) RS TT I) as VI.
  destruct (visit tcallback recs (Some g1)) as [[v rc] s'] eqn:V.
  unfold parse_tw_records. rewrite Z.eqb_refl, PV. clear PV. destruct VI as (g' & -> & [(-> & I')|(-> & a & r & b & E & W)]).
  2: { cbn [Z.eqb Z.leb Z.compare]. right. exists a, r, b. auto. }
  cbn [Z.eqb app] in *. destruct (Nat.eqb_spec (length recs) (Z.to_nat (nrecs (rec_size := rec_size) odata oskip limit f begin))) as [LN|LN].
  2: { left. destruct RD as (RD & _). lia. }
  destruct I' as (lo & lob & (JU & JB & F & B & FS & BS & SA & RR & TB) & FG).
  destruct (all_f (fuel_for first last') first last' _ lo _ _ (h_pk g') ltac:(lia) ltac:(lia) F SA FS) as (k1 & A0 & A1 & A2 & A3 & A4).
  { destruct F as (_ & _ & X & _). unfold fuel_for. lia. }
  rewrite A0.
  assert (B1: Bk first (tw_range first last' recs) lob k1). { unfold Bk, blen in *. rewrite A3. exact B. }
  assert (BS1: bsums (Z.of_nat (length (replies (tw_range first last' recs))) - reflections (replies (tw_range first last' recs))) k1). { unfold bsums in *. rewrite A3, A4. exact BS. }
  assert (BL: blen k1 = blen (h_pk g')) by (unfold blen; now rewrite A3).
  destruct (all_b (start := start) (delta := delta) (length (tb_list (q_bck k1)) + fuel_for first last') first last' _ lob _ k1 ltac:(lia) ltac:(lia) B1 BS1 ltac:(lia)) as (k2 & C0 & C1 & C2 & C3).
  { destruct B1 as (_ & _ & X & _). unfold fuel_for, blen. lia. }
  rewrite C0. split; [exact LN|]. unfold tsummary. cbn [h_pk]. split; [exact FG|]. split; [congruence|]. split; [congruence|]. split; [congruence|]. split; [exact SA|]. intros r I0. apply RR. exact I0.
Qed.
End Parse.

Section Fits.
Context {start timeout npackets : Z} {delta : nat -> Z}.
Notation sch := (sched_stamp start delta).
Lemma tchronicle_fits : forall first last recs a r b, no_wrap start npackets delta -> tw_chronicle start timeout delta recs -> own_numbers recs -> in_step recs ->
  (forall x, In x (replies (tw_range first last recs)) -> first <= reply x) -> 0 <= first -> last <= npackets ->
  recs = a ++ r :: b -> ~ tmisfit (start := start) (timeout := timeout) (delta := delta) first last a r.
Proof.
  intros first last recs a r b NW (CH1 & CH2) OW IS FR F0 LN E (IR & M).
  assert (NR: nth_error recs (length a) = Some r) by (rewrite E, nth_error_app2, Nat.sub_diag by lia; reflexivity).
  assert (RP: replies recs = replies a ++ replies (r :: b)) by (rewrite E; unfold replies; apply filter_app).
  assert (SUB: forall x, In x (replies (tw_range first last a)) -> In x (replies a)).
  { intros x I. apply filter_In in I. destruct I as (I & N). apply filter_In in I. apply filter_In. tauto. }
  destruct M as [(lo & JU & LT)|[(L & M)|[(L & M)|[(L & M)|[(L & M)|(L & M)]]]]].
  - destruct JU as [->|((J1 & J2) & x & I & J)]; [lia|]. apply filter_In in I. destruct I as (I & _). apply In_nth_error in I. destruct I as (i & I).
    assert (Hi: (i < length (a ++ [r]))%nat) by (apply nth_error_Some; congruence). rewrite app_length in Hi. cbn [length] in Hi.
    assert (NI: nth_error recs i = Some x).
    { rewrite E. replace (a ++ r :: b) with ((a ++ [r]) ++ b) by (rewrite <- app_assoc; reflexivity). rewrite nth_error_app1 by (rewrite app_length; cbn [length]; lia). exact I. }
    specialize (CH2 i (length a) x r ltac:(lia) NI NR). destruct (no_reply x); [lia|]. unfold tthresh, OWPNum64Sub, u64 in J. change M64 with (2^64) in J.
    pose proof (sch_mono (start := start) (npackets := npackets) (delta := delta) (packet r) (lo - 1) NW ltac:(lia) ltac:(lia)). lia.
  - specialize (CH2 (length a) (length a) r r ltac:(lia) NR NR). rewrite L in CH2. unfold tthresh, OWPNum64Sub, u64 in M. change M64 with (2^64) in M. lia.
  - apply in_map_iff in M. destruct M as (s & EQ & I). apply SUB in I. apply filter_In in I. destruct I as (I & N).
    destruct (CH1 (packet r)) as (_ & [X|X]).
    + assert (0 < tw_count (fun x => no_reply x && (packet x =? packet r)) recs); [|lia]. apply tw_count_in. exists r. rewrite E. split; [apply in_app_iff; right; now left|]. rewrite L, Z.eqb_refl. reflexivity.
    + assert (0 < tw_count (fun x => negb (no_reply x) && (packet x =? packet r)) recs); [|lia]. apply tw_count_in. exists s. rewrite E. split; [apply in_app_iff; now left|]. rewrite N, EQ, Z.eqb_refl. reflexivity.
  - apply in_map_iff in M. destruct M as (s & EQ & I). apply filter_In in I. destruct I as (I & N). apply filter_In in I. destruct I as (I & _).
    destruct (CH1 (packet r)) as (_ & [X|X]).
    + assert (0 < tw_count (fun x => no_reply x && (packet x =? packet r)) recs); [|lia]. apply tw_count_in. exists s. rewrite E. split; [apply in_app_iff; now left|]. rewrite N, EQ, Z.eqb_refl. reflexivity.
    + assert (0 < tw_count (fun x => negb (no_reply x) && (packet x =? packet r)) recs); [|lia]. apply tw_count_in. exists r. rewrite E. split; [apply in_app_iff; right; now left|]. rewrite L, Z.eqb_refl. reflexivity.
  - destruct M as [M|(s & I & P & Q)].
    + assert (X: In r (replies (tw_range first last recs))). { apply filter_In. rewrite L. split; [|reflexivity]. apply filter_In. rewrite E. split; [apply in_app_iff; right; now left|lia]. }
      specialize (FR r X). lia.
    + apply SUB in I. apply In_nth_error in I. destruct I as (i & I). assert (Hi: (i < length (replies a))%nat) by (apply nth_error_Some; congruence).
      specialize (IS i (length (replies a)) s r ltac:(lia)). rewrite RP in IS. rewrite nth_error_app1 in IS by lia. rewrite nth_error_app2, Nat.sub_diag in IS by lia.
      cbn [replies filter] in IS. rewrite L in IS. cbn [negb nth_error] in IS. specialize (IS I eq_refl P). lia.
  - destruct M as (s & I & Q & P). apply SUB in I. apply P. apply OW; [| |exact Q]; rewrite RP; apply in_app_iff; [now left|right]. apply filter_In. rewrite L. split; [now left|reflexivity].
Qed.
End Fits.
