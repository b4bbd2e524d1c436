(** A session whose control connection was lost: removal of the records above the last packet received. *)
From Coq Require Import ZArith List Bool Lia ZifyBool ZifyNat.
From Verif Require Import Base BaseLemmas Arith_Model Arith_Proofs Time_Model Sched_Model Wire_Model Wire_Spec Wire_Proofs File_Model File_Spec File_Proofs File_Updates
  Double Double_Proofs Clean_Model Clean_Spec Clean_Proofs Clean_Search Clean_Result.
Import ListNotations.
Open Scope Z_scope.

Definition upto (max : Z) (x : item) : bool := r_seq (snd x) <=? max.

Lemma drop_spec : forall f header items h max, recorded f header items -> ih_version h = 3 -> ih_recsize h = 25 -> ih_odata h = Z.of_nat (length header) ->
  forall n j num w, (j + n = length items)%nat -> Z.of_nat n <= num < 2^32 ->
  exists w', drop_above h f max n (Z.of_nat j) (Z.of_nat (length header) + 25 * Z.of_nat j) num w =
    Some (num - Z.of_nat n + Z.of_nat (length (filter (upto max) (skipn j items))), w') /\
    contents (header := header) (f := f) (length items) w' = contents (header := header) (f := f) j w ++ concat (map fst (filter (upto max) (skipn j items))).
Proof.
  intros f header items h max R V S O. induction n as [|n IH]; intros j num w J N.
  - cbn [drop_above]. rewrite (skipn_all2 items) by lia. cbn [filter map concat length]. exists w. split; [do 2 f_equal; lia|].
    rewrite app_nil_r. replace j with (length items) by lia. reflexivity.
  - assert (X: exists x, nth_error items j = Some x).
    { destruct (nth_error items j) eqn:E; [eauto|]. apply nth_error_None in E. lia. }
    destruct X as (x & X). cbn [drop_above]. rewrite (read_at R h j V S), X. destruct x as (b & r).
    rewrite (skip_cons _ _ _ X). cbn [filter].
    assert (K: upto max (b, r) = (r_seq r <=? max)) by reflexivity.
    assert (SZ: 25 * Z.of_nat (length items) < 2^32) by apply R.
    replace (Z.of_nat j + 1) with (Z.of_nat (Datatypes.S j)) by lia.
    replace (Z.of_nat (length header) + 25 * Z.of_nat j + ih_recsize h) with (Z.of_nat (length header) + 25 * Z.of_nat (Datatypes.S j)) by lia.
    rewrite K. destruct (Z.ltb_spec max (r_seq r)) as [G|G]; destruct (Z.leb_spec (r_seq r) max) as [L|L]; try lia.
    + assert (U: u32 (num - 1) = num - 1) by (unfold u32; apply Z.mod_small; pows; lia). rewrite U.
      destruct (IH (Datatypes.S j) (num - 1) (match w with Some _ => w | None => Some (ih_odata h + u32 (Z.of_nat j * ih_recsize h), []) end) ltac:(lia) ltac:(lia)) as (w' & I1 & I2).
      exists w'. split; [rewrite I1; do 2 f_equal; lia|]. rewrite I2. f_equal. destruct w as [(l, y)|]; cbn [contents]; [reflexivity|]. rewrite app_nil_r.
      rewrite O, S. replace (u32 (Z.of_nat j * 25)) with (25 * Z.of_nat j) by (unfold u32; rewrite Z.mod_small; pows; lia). f_equal. lia.
    + destruct (IH (Datatypes.S j) num (match w with Some (l, x) => Some (l, x ++ b) | None => None end) ltac:(lia) ltac:(lia)) as (w' & I1 & I2).
      exists w'. cbn [length map concat fst]. split; [rewrite I1; do 2 f_equal; lia|].
      rewrite I2, app_assoc. f_equal. destruct w as [(l, y)|]; cbn [contents]; [now rewrite app_assoc|]. exact (contents_next R j _ X).
Qed.

Definition scan (l : list item) (m : maxrecv) : maxrecv := fold_left (fun m x => snd (get_max_recv (snd x) m)) l m.

Lemma parse_scan : forall f header items, recorded f header items -> forall n j m, (j + n = length items)%nat ->
  parse_loop datarec maxrecv get_max_recv (decode_datarec 3) 25 (length header + 25 * j) n f m = (true, scan (skipn j items) m).
Proof.
  intros f header items R. induction n as [|n IH]; intros j m J.
  - cbn [parse_loop]. rewrite skipn_all2 by lia. reflexivity.
  - cbn [parse_loop].
    pose proof (read_at R (mkIH 3 25 0 0 0 0 0 0 0 0 true) j eq_refl eq_refl) as RA. unfold read_rec in RA. cbn [ih_recsize ih_version] in RA.
    destruct (Z.ltb_spec (Z.of_nat (length header) + 25 * Z.of_nat j) 0); [lia|].
    replace (Z.to_nat (Z.of_nat (length header) + 25 * Z.of_nat j)) with (length header + 25 * j)%nat in RA by lia. change (Z.to_nat 25) with 25%nat in RA.
    destruct (nth_error items j) as [(b0, r0)|] eqn:X; [|apply nth_error_None in X; lia].
    destruct (fread (length header + 25 * j) 25 f) as [b|]; [|discriminate].
    destruct (decode_datarec 3 b) as [r|]; [|discriminate]. injection RA as -> ->.
    rewrite (skip_cons _ _ _ X). unfold scan. cbn [fold_left snd]. 
    destruct (get_max_recv r0 m) as [rc m'] eqn:G. assert (rc = 0) by (unfold get_max_recv in G; destruct (if negb (is_lost r0) then _ else _) as [[[? ?] ?] ?]; congruence). subst rc.
    cbn [Z.eqb snd]. replace (length header + 25 * j + 25)%nat with (length header + 25 * Datatypes.S j)%nat by lia. rewrite IH by lia. reflexivity.
Qed.

(** a lost record is never followed by a received one with the same or a smaller number *)
Definition in_sequence (l : list item) : Prop := forall a x b y c, l = a ++ x :: b ++ y :: c -> lost (snd x) -> ~ lost (snd y) -> r_seq (snd x) < r_seq (snd y).

Lemma scan_inv : forall l, in_sequence l -> Forall (fun x => 0 <= r_seq (snd x)) l -> Z.of_nat (length l) < 2^32 ->
  let m := scan l (mkMR false 0 0 0 0) in
  mr_index m = Z.of_nat (length l) /\ 0 <= mr_index_badlost m <= Z.of_nat (length l) /\ 0 <= mr_max m /\
  (mr_found m = false -> mr_max m = 0 /\ Forall (fun x => lost (snd x)) l) /\
  (mr_found m = true -> exists y, In y l /\ ~ lost (snd y) /\ r_seq (snd y) = mr_max m) /\
  (forall y, In y l -> ~ lost (snd y) -> r_seq (snd y) <= mr_max m) /\
  (forall x, In x (firstn (Z.to_nat (mr_index_badlost m)) l) -> r_seq (snd x) <= mr_max m) /\
  (mr_badlost m < mr_max m -> forall x, In x l -> r_seq (snd x) <= mr_max m).
Proof.
  induction l as [|x l IH] using rev_ind; intros Q P N m.
  - subst m. cbn. split; [reflexivity|]. split; [lia|]. split; [lia|]. split; [split; [reflexivity|constructor]|]. split; [discriminate|]. split; [intros y []|]. split; [intros y []|]. intros _ y [].
  - assert (Q': in_sequence l). { intros a u b v c E. apply (Q a u b v (c ++ [x])). rewrite E, <- app_assoc. cbn [app]. rewrite <- app_assoc. reflexivity. }
    apply Forall_app in P. destruct P as (P & Px). inversion Px as [|? ? P0 _]; subst. rewrite app_length in N. cbn [length] in N.
    specialize (IH Q' P ltac:(lia)). cbv zeta in IH. destruct IH as (I1 & I2 & I3 & I4 & I5 & I6 & I7 & I8).
    assert (SC: m = snd (get_max_recv (snd x) (scan l (mkMR false 0 0 0 0)))) by (subst m; unfold scan; rewrite fold_left_app; reflexivity).
    clearbody m. subst m. set (m := scan l (mkMR false 0 0 0 0)) in *. clearbody m.
    assert (UI: u32 (mr_index m + 1) = Z.of_nat (length l) + 1) by (unfold u32; rewrite Z.mod_small; pows; lia).
    rewrite !app_length. cbn [length]. unfold get_max_recv. unfold is_lost.
    destruct (Z.eqb_spec (owptime (r_recv (snd x))) 0) as [L|L]; cbn [negb].
    + (* lost *)
      destruct ((mr_max m <? r_seq (snd x)) && (mr_badlost m <? mr_max m)) eqn:B; cbn [snd mr_found mr_index mr_max mr_badlost mr_index_badlost]; rewrite UI.
      * apply andb_prop in B. destruct B as (B1 & B2).
        split; [lia|]. split; [lia|]. split; [lia|]. split; [intros F; destruct (I4 F) as (I4a & I4b); split; [exact I4a|]; apply Forall_app; split; [exact I4b|constructor; [exact L|constructor]]|].
        split; [intros F; destruct (I5 F) as (y & Y & Y2); exists y; split; [apply in_or_app; auto|exact Y2]|].
        split; [intros y Y NL; apply in_app_or in Y; destruct Y as [Y|[<-|[]]]; [auto|contradiction]|].
        split; [|lia]. intros y Y. rewrite I1, Nat2Z.id, firstn_app, firstn_all, Nat.sub_diag in Y. rewrite firstn_O, app_nil_r in Y. apply I8; [lia|exact Y].
      * split; [lia|]. split; [lia|]. split; [lia|]. split; [intros F; destruct (I4 F) as (I4a & I4b); split; [exact I4a|]; apply Forall_app; split; [exact I4b|constructor; [exact L|constructor]]|].
        split; [intros F; destruct (I5 F) as (y & Y & Y2); exists y; split; [apply in_or_app; auto|exact Y2]|].
        split; [intros y Y NL; apply in_app_or in Y; destruct Y as [Y|[<-|[]]]; [auto|contradiction]|].
        split.
        -- intros y Y. rewrite firstn_app in Y. replace (Z.to_nat (mr_index_badlost m) - length l)%nat with 0%nat in Y by lia. rewrite firstn_O, app_nil_r in Y. auto.
        -- intros BL y Y. apply in_app_or in Y. destruct Y as [Y|[<-|[]]]; [auto|]. lia.
    + (* received *)
      cbn [snd mr_found mr_index mr_max mr_badlost mr_index_badlost]. rewrite UI.
      assert (A: forall y, In y l -> r_seq (snd y) <= Z.max (mr_max m) (r_seq (snd x))).
      { intros y Y. destruct (Z.eq_dec (owptime (r_recv (snd y))) 0) as [Ly|Ly].
        - apply in_split in Y. destruct Y as (a & b & ->). assert (r_seq (snd y) < r_seq (snd x)); [|lia]. apply (Q a y b x []); [rewrite <- app_assoc; reflexivity|exact Ly|exact L].
        - specialize (I6 y Y Ly). lia. }
      split; [lia|]. split; [lia|]. split; [lia|]. split; [discriminate|].
      split.
      { intros _. destruct (Z.le_gt_cases (r_seq (snd x)) (mr_max m)) as [G|G].
        - destruct (mr_found m) eqn:F.
          + destruct (I5 eq_refl) as (y & Y1 & Y2 & Y3). exists y. split; [apply in_or_app; auto|]. split; [exact Y2|]. lia.
          + destruct (I4 eq_refl) as (M0 & _). exists x. split; [apply in_or_app; right; left; auto|]. split; [exact L|]. lia.
        - exists x. split; [apply in_or_app; right; left; auto|]. split; [exact L|]. lia. }
      split; [intros y Y NL; apply in_app_or in Y; destruct Y as [Y|[<-|[]]]; [specialize (I6 y Y NL); lia|lia]|].
      split.
      { intros y Y. rewrite firstn_app in Y. replace (Z.to_nat (mr_index_badlost m) - length l)%nat with 0%nat in Y by lia. rewrite firstn_O, app_nil_r in Y. specialize (I7 y Y). lia. }
      intros _ y Y. apply in_app_or in Y. destruct Y as [Y|[<-|[]]]; [auto|lia].
Qed.

Lemma broken_zero : forall f header items start timeout npackets delta stop fuel f1 off hd' (kp : list item),
  recorded f header items -> clean_data_recs (fun k => k) fuel f start timeout npackets delta 4294967295 stop = CleanOK f1 0 off ->
  f1 = hd' ++ concat (map fst kp) -> with_count (length kp) header hd' -> Forall item_ok kp -> (length kp <= length items)%nat ->
  in_sequence kp -> Forall (fun x => 0 <= r_seq (snd x)) kp ->
  (Forall (fun x => lost (snd x)) kp -> exists header2, clean_up_session (fun k => k) fuel f start timeout npackets delta stop = CleanOK header2 0 off /\ with_count 0 header header2) /\
  (forall y, In y kp -> ~ lost (snd y) -> (forall z, In z kp -> ~ lost (snd z) -> r_seq (snd z) <= r_seq (snd y)) ->
    exists f2 header2 off2, clean_up_session (fun k => k) fuel f start timeout npackets delta stop = CleanOK f2 (r_seq (snd y)) off2 /\
      f2 = header2 ++ concat (map fst (filter (upto (r_seq (snd y))) kp)) /\
      length header2 = length header /\ field header2 20 4 = Z.of_nat (length (filter (upto (r_seq (snd y))) kp)) /\ field header2 8 4 = 2).
Proof.
  intros f header items start timeout npackets delta stop fuel f1 off hd' kp R C F1 W IK LK Q P.
  assert (SZ: 25 * Z.of_nat (length items) < 2^32) by apply R.
  assert (LH: (152 <= length header)%nat) by apply R.
  assert (R1: recorded f1 hd' kp) by (rewrite F1; eapply recorded_count; eauto).
  pose proof (scan_inv kp Q P ltac:(lia)) as SI. cbv zeta in SI.
  destruct (rec_initial R1) as (h & I & V & S & O & OS & ZS & ND).
  destruct W as (W1 & W2 & W3).
  unfold clean_up_session. rewrite C, I. change (0 =? 0) with true. cbv iota.
  destruct (Z.ltb_spec (ih_odata h) 0); [lia|].
  assert (PR: parse_records get_max_recv (ih_version h) (Z.to_nat (ih_odata h)) (Z.to_nat (ih_ndata h)) f1 (mkMR false 0 0 0 0) = Some (true, scan kp (mkMR false 0 0 0 0))).
  { unfold parse_records. rewrite V. cbn [Z.eqb Pos.eqb orb]. rewrite O, ND, W2, !Nat2Z.id.
    pose proof (parse_scan f1 hd' kp R1 (length kp) 0 (mkMR false 0 0 0 0) ltac:(lia)) as X. rewrite Nat.mul_0_r, Nat.add_0_r in X. rewrite X. reflexivity. }
  rewrite PR. destruct SI as (I1 & I2 & I3 & I4 & I5 & I6 & I7 & I8). set (m := scan kp (mkMR false 0 0 0 0)) in *. clearbody m.
  split.
  - intros AL. destruct (mr_found m) eqn:F; cbn [negb].
    { destruct (I5 eq_refl) as (y & Y1 & Y2 & _). rewrite Forall_forall in AL. exfalso. exact (Y2 (AL y Y1)). }
    rewrite O, Nat2Z.id, (rec_head R1).
    assert (RE: recorded (hd' ++ concat (map fst [])) hd' []) by (eapply recorded_prefix; [exact R1|constructor|cbn; lia]).
    cbn [map concat] in RE. rewrite app_nil_r in RE.
    destruct (write_count hd' hd' [] 0 RE ltac:(pows; lia)) as (hd2 & X & X1 & X2 & X3). rewrite X. cbn [map concat]. rewrite app_nil_r.
    exists hd2. split; [reflexivity|]. split; [congruence|]. split; [exact X2|]. intros i G. rewrite X3, W3 by exact G. reflexivity.
  - intros y Y NL MX. destruct (mr_found m) eqn:F; cbn [negb].
    2:{ destruct (I4 eq_refl) as (_ & AL). rewrite Forall_forall in AL. exfalso. exact (NL (AL y Y)). }
    assert (EM: mr_max m = r_seq (snd y)).
    { destruct (I5 eq_refl) as (z & Z1 & Z2 & Z3). specialize (MX z Z1 Z2). specialize (I6 y Y NL). lia. }
    rewrite EM in *. set (M := r_seq (snd y)) in *. clearbody M.
    set (k := Z.to_nat (mr_index_badlost m)) in *.
    replace (mr_index_badlost m) with (Z.of_nat k) by lia. assert (KL: (k <= length kp)%nat) by lia. clearbody k.
    rewrite S, O, ND, W2.
    replace (u32 (Z.of_nat k * 25)) with (Z.of_nat k * 25) by (unfold u32; rewrite Z.mod_small; pows; lia).
    replace (Z.of_nat (length hd') + Z.of_nat k * 25 - Z.of_nat (length hd')) with (Z.of_nat k * 25) by lia. rewrite Z.quot_mul by lia.
    replace (u32 (Z.of_nat k)) with (Z.of_nat k) by (unfold u32; rewrite Z.mod_small; pows; lia).
    rewrite (Z.mul_comm (Z.of_nat k) 25).
    destruct (drop_spec f1 hd' kp h M R1 V S O (Z.to_nat (Z.of_nat (length kp) - Z.of_nat k)) k (Z.of_nat (length kp)) None) as (w' & D1 & D2); [lia|lia|]. rewrite D1.
    assert (FE: filter (upto M) kp = firstn k kp ++ filter (upto M) (skipn k kp)).
    { rewrite <- (firstn_skipn k kp) at 1. rewrite filter_app. f_equal. apply filter_all'. intros x X. unfold upto. specialize (I7 x X). lia. }
    assert (NN: Z.of_nat (length kp) - Z.of_nat (Z.to_nat (Z.of_nat (length kp) - Z.of_nat k)) + Z.of_nat (length (filter (upto M) (skipn k kp))) = Z.of_nat (length (filter (upto M) kp))).
    { rewrite FE, app_length, firstn_length. lia. }
    rewrite NN.
    assert (CB: copy_back (fun k => k) f1 w' = hd' ++ concat (map fst (filter (upto M) kp))).
    { pose proof (rec_len_f R1) as LF.
      assert (C1: contents (header := hd') (f := f1) (length kp) w' = copy_back (fun k => k) f1 w').
      { destruct w' as [(l, z)|]; cbn [contents copy_back]; [now rewrite firstn_all|]. apply firstn_all2. lia. }
      rewrite <- C1, D2. cbn [contents]. rewrite F1, firstn_app, firstn_all2 by lia. replace (length hd' + 25 * k - length hd')%nat with (25 * k)%nat by lia.
      rewrite (concat_first kp IK), FE, map_app, concat_app, app_assoc. reflexivity. }
    assert (FL: (length (filter (upto M) kp) <= length kp)%nat) by apply filter_len.
    assert (R2: recorded (copy_back (fun k => k) f1 w') hd' (filter (upto M) kp)).
    { rewrite CB. eapply recorded_prefix; [exact R1|now apply Forall_filter'|exact FL]. }
    destruct (write_count _ _ _ (Z.of_nat (length (filter (upto M) kp))) R2 ltac:(pows; lia)) as (hd2 & X & X1 & X2 & X3).
    rewrite X. unfold write_finished. change (2 <? FIN_INCOMPLETE) with false. cbv iota.
    exists (put 12 (be_enc 4 0) (put 8 (be_enc 4 FIN_INCOMPLETE) hd2) ++ concat (map fst (filter (upto M) kp))), (put 12 (be_enc 4 0) (put 8 (be_enc 4 FIN_INCOMPLETE) hd2)).
    assert (PP: forall o b (m t : list Z), (o + length b <= length m)%nat -> put o b (m ++ t) = put o b m ++ t).
    { intros o b m0 t L. unfold put. rewrite firstn_app, skipn_app. replace (o - length m0)%nat with 0%nat by lia. replace (o + length b - length m0)%nat with 0%nat by lia.
      change (firstn 0 t) with (@nil Z). change (skipn 0 t) with t. now rewrite app_nil_r, <- !app_assoc. }
    assert (L4: forall x, length (be_enc 4 x) = 4%nat) by (intros; apply be_enc_length).
    eexists. split.
    + rewrite (fwrite_in 8) by (rewrite app_length, L4; lia). rewrite PP by (rewrite L4; lia).
      rewrite fwrite_in by (rewrite app_length, put_length; rewrite ?L4; lia). rewrite PP by (rewrite put_length; rewrite ?L4; lia). reflexivity.
    + split; [reflexivity|]. split; [rewrite !put_length; rewrite ?L4; try lia; rewrite put_length; rewrite ?L4; lia|].
      assert (FS: forall m o n, field m o n = number (sub o n m)) by reflexivity. rewrite !FS in *.
      rewrite !(sub_put_disjoint 20) by (rewrite ?L4; try (rewrite put_length; rewrite ?L4); lia).
      rewrite (sub_put_disjoint 8) by (rewrite ?L4; try (rewrite put_length; rewrite ?L4); lia).
      split; [exact X2|]. change (sub 8 4 (put 8 (be_enc 4 FIN_INCOMPLETE) hd2)) with (sub 8 (length (be_enc 4 FIN_INCOMPLETE)) (put 8 (be_enc 4 FIN_INCOMPLETE) hd2)).
      rewrite sub_put_same by (rewrite ?L4; lia). reflexivity.
Qed.
